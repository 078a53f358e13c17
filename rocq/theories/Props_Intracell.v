(** C100 to C106: the half-cell fit of diagnostic cycles. *)
From Coq Require Import Sorting.Sorted Sorting.Permutation Psatz Lqa.
From Verif Require Import Py Num Model_Text Model_Diagnostic Model_Interp Model_Degrade Model_Lookup Model_Hppc Model_Intracell Spec_Intracell Proofs_Interp Proofs_Intracell.
From Verif Require Proofs_Hppc.

(** * C100: the charge of a diagnostic *)
Section C100.
Variable nothing : exn.
(** The profile has 1001 capacities at even distances from 0 to the last measured one; from the first
    measured capacity on, the voltage is read from the measured charge, before it, it is 2.7 V. *)
Theorem C100_profile type data cycle l : candidate_profile nothing type 0 data cycle = Ok l ->
  exists top, greatest (fun q => exists v, charged data type cycle (q, v)) top /\
    evenly 0 top 1001 (map fst l) /\
    forall q v, In (q, v) l ->
      ((exists p, charged data type cycle p /\ fst p <= q) -> inside (charged data type cycle) q v /\ exists y, v = Some y) /\
      ((forall p, charged data type cycle p -> q < fst p) -> v = Some (27 # 10)).
Proof.
  intro H. destruct (profile_spec _ _ _ _ _ H) as (top & G & E & R). exists top. split; [exact G|]. split; [exact E|]. intros q v I. destruct (R q v I) as [A B].
  split; [|exact B]. intro P. specialize (A P). split; [exact A|]. assert (N : v <> None).
  { apply (inside_known (charged data type cycle) q v); [|exact A]. intros p (r & w & _ & _ & _ & _ & _ & _ & _ & _ & S0) K. rewrite S0 in K. discriminate. }
  destruct v as [y|]; [eauto|congruence].
Qed.
(** There is a profile as soon as something was charged below 4.2 V. *)
Theorem C100_exists type data cycle p : charged data type cycle p -> exists l, candidate_profile nothing type 0 data cycle = Ok l.
Proof. apply profile_total. Qed.
Theorem C100_nothing type data cycle : (forall p, ~ charged data type cycle p) -> candidate_profile nothing type 0 data cycle = Err nothing.
Proof.
  intro N. unfold candidate_profile. destruct (charge_points type 0 data cycle) as [|p l] eqn:E; [reflexivity|]. destruct (N p). apply charge_points_in. rewrite E. left. reflexivity.
Qed.
(** Records of other diagnostics, of other types of diagnostics and of other steps have no influence. *)
Theorem C100_local type data data' cycle : (forall r, i_type r = type -> i_cycle r = cycle -> i_step r = 0%Z -> (In r data <-> In r data')) ->
  (forall p, charged data type cycle p <-> charged data' type cycle p) /\
  candidate_profile nothing type 0 (filter (fun r => String.eqb (i_type r) type && Z.eqb (i_cycle r) cycle && Z.eqb (i_step r) 0) data) cycle =
  candidate_profile nothing type 0 data cycle.
Proof.
  intro H. split.
  - intro p. unfold charged. split; intros (r & v & I & A & B & C & R); exists r, v; (split; [apply (H r A B C); exact I|tauto]).
  - unfold candidate_profile. assert (E : charge_points type 0 (filter (fun r => String.eqb (i_type r) type && Z.eqb (i_cycle r) cycle && Z.eqb (i_step r) 0) data) cycle = charge_points type 0 data cycle); [|rewrite E; reflexivity].
    clear. unfold charge_points. induction data as [|r data IH]; [reflexivity|]. cbn [filter flat_map].
    destruct (String.eqb (i_type r) type && Z.eqb (i_cycle r) cycle && Z.eqb (i_step r) 0) eqn:E; cbn [flat_map]; [rewrite IH, E; reflexivity|rewrite IH; reflexivity].
Qed.
(** Finding: with step type 1 (discharge) the voltages are still those of the charge; the records of the
    discharge have no influence at all. *)
Theorem C100_discharge_refuted type data cycle :
  candidate_profile nothing type 1 data cycle = candidate_profile nothing type 1 (filter (fun r => Z.eqb (i_step r) 0) data) cycle.
Proof. unfold candidate_profile. rewrite <- charge_points_charge. reflexivity. Qed.
End C100.

(** * C101: the electrodes of a guess *)
Section C101.
Variable nothing : exn.
Definition placed (h : half_cells) (neg : table) (x : guess) (q : Q) : Prop :=
  (exists s, In s (t_pe h) /\ q == fst s / 100 * g_pe x) \/ (exists s, In s neg /\ q == fst s / 100 * g_ne x + g_lli x).
(** Both electrodes are given at the same 1001 even capacities, from the first to the last capacity of either;
    at capacity Q the positive electrode has its pristine voltage at SOC 100 Q / q_pe, the negative one at
    SOC 100 (Q - lli) / q_ne, and none where it has no such SOC. *)
Theorem C101_electrodes h x pe ne : 0 < g_pe x -> 0 < g_ne x -> impose nothing h x = Ok (pe, ne) -> exists neg lo hi,
  blend_electrodes nothing (t_ne h) (t_ne2_pos h) (t_ne2_neg h) (g_x2 x) = Ok neg /\
  map fst pe = map fst ne /\ evenly lo hi 1001 (map fst pe) /\ least (placed h neg x) lo /\ greatest (placed h neg x) hi /\
  (forall q v, In (q, v) pe -> reads (fun p => In p (as_curve (t_pe h))) (100 * q / g_pe x) v) /\
  (forall q v, In (q, v) ne -> reads (fun p => In p (as_curve neg)) (100 * (q - g_lli x) / g_ne x) v).
Proof.
  intros P1 P2 H. destruct (impose_inv _ _ _ _ _ H) as (neg & f & g & a1 & b1 & a2 & b2 & BL & L1 & L2 & S1 & S2 & F & G & EP & EN).
  exists neg, (min_q a1 a2), (max_q b1 b2). split; [exact BL|]. subst pe ne. rewrite !sample_fst. split; [reflexivity|]. split; [apply linspace_evenly, points_2|].
  destruct (span_spec _ _ _ _ S1) as [[A1 A1'] [B1 B1']]. destruct (span_spec _ _ _ _ S2) as [[A2 A2'] [B2 B2']].
  apply rescale_span in A1 as (s1 & A1 & E1); [|exact P1]. apply rescale_span in B1 as (s2 & B1 & E2); [|exact P1].
  apply rescale_span in A2 as (s3 & A2 & E3); [|exact P2]. apply rescale_span in B2 as (s4 & B2 & E4); [|exact P2].
  assert (K1 : forall s, In s (t_pe h) -> a1 <= fst s / 100 * g_pe x + 0 <= b1) by (intros s SI; split; [apply A1'|apply B1']; apply rescale_span; eauto).
  assert (K2 : forall s, In s neg -> a2 <= fst s / 100 * g_ne x + g_lli x <= b2) by (intros s SI; split; [apply A2'|apply B2']; apply rescale_span; eauto).
  destruct (min_q_spec a1 a2) as (M & M1 & M2). destruct (max_q_spec b1 b2) as (N & N1 & N2).
  split; [|split; [|split]].
  - split.
    + destruct M as [-> | ->]; [left; exists s1; split; [exact A1|rewrite E1; ring]|right; exists s3; split; [exact A2|rewrite E3; reflexivity]].
    + intros y [(s & SI & E)|(s & SI & E)]; [specialize (K1 s SI)|specialize (K2 s SI)]; lra.
  - split.
    + destruct N as [-> | ->]; [left; exists s2; split; [exact B1|rewrite E2; ring]|right; exists s4; split; [exact B2|rewrite E4; reflexivity]].
    + intros y [(s & SI & E)|(s & SI & E)]; [specialize (K1 s SI)|specialize (K2 s SI)]; lra.
  - intros q v V. apply sample_in in V as [_ ->]. pose proof (reads_rescale (g_pe x) 0 (t_pe h) q (f q) P1 (interp_reads _ _ _ q F)) as R.
    assert (E : 100 * q / g_pe x == 100 * (q - 0) / g_pe x) by (field; lra). apply (reads_ext _ _ _ _ E R).
  - intros q v V. apply sample_in in V as [_ ->]. apply (reads_rescale (g_ne x) (g_lli x) neg q (g q) P2 (interp_reads _ _ _ q G)).
Qed.
(** They can be computed if both tables have 1001 rows *)
Theorem C101_defined h x neg : blend_electrodes nothing (t_ne h) (t_ne2_pos h) (t_ne2_neg h) (g_x2 x) = Ok neg ->
  t_pe h <> [] -> neg <> [] -> ((exists pe ne, impose nothing h x = Ok (pe, ne)) <-> length (t_pe h) = 1001%nat /\ length neg = 1001%nat).
Proof.
  intros B N1 N2. split.
  - intros (pe & ne & H). destruct (impose_inv _ _ _ _ _ H) as (neg' & f & g & a1 & b1 & a2 & b2 & BL & L1 & L2 & _). rewrite B in BL. injection BL as <-. split; assumption.
  - intros [L1 L2]. apply (impose_total nothing h x neg B L1 L2).
Qed.
(** Finding: half-cell data in tables of any other length cannot be used; the error is a ValueError, which the
    fit takes for a bad guess (C104). *)
Theorem C101_length_refuted h x neg : blend_electrodes nothing (t_ne h) (t_ne2_pos h) (t_ne2_neg h) (g_x2 x) = Ok neg ->
  t_pe h <> [] -> neg <> [] -> length (t_pe h) <> 1001%nat \/ length neg <> 1001%nat -> impose nothing h x = Err ValueError.
Proof. apply impose_length. Qed.
(** Without a second negative electrode, its fraction has no influence: whatever is reported for it is
    arbitrary. *)
Theorem C101_fraction_unused h x x2 : t_ne2_pos h = [] ->
  impose nothing h {| g_lli := g_lli x; g_pe := g_pe x; g_ne := g_ne x; g_x2 := x2 |} = impose nothing h x.
Proof. intro E. unfold impose, blend_electrodes. rewrite E. reflexivity. Qed.
End C101.

(** * C102: the emulated cell and its comparison with the measured one *)
Section C102.
Variable nothing : exn.
(** Both electrodes are moved by the same capacity, so that the cell is at capacity 0 where its voltage is
    lowest within the limits. *)
Theorem C102_zero h real x pe ne r e : matching nothing h real x = Ok (pe, ne, r, e) -> exists pe0 ne0 z,
  impose nothing h x = Ok (pe0, ne0) /\ moved z pe0 pe /\ moved z ne0 ne /\
  exists v, cell_point pe ne (z - z, Some v) /\ forall q w, cell_point pe ne (q, Some w) -> v <= w.
Proof.
  intro H. destruct (matching_inv _ _ _ _ _ _ _ _ H) as (cell & a & b & f & g & Z & _). destruct (zeroed_inv _ _ _ _ _ _ Z) as (pe0 & ne0 & z & I & L & EP & EN & EC).
  exists pe0, ne0, z. split; [exact I|]. subst pe ne. split; [apply shift_moved|]. split; [apply shift_moved|].
  destruct (lowest_spec _ _ L) as (v & V & M). exists v. split.
  - apply (zeroed_cell _ _ _ _ _ _ Z). subst cell. apply in_map_iff. exists (z, Some v). split; [reflexivity|exact V].
  - intros q w W. apply (zeroed_cell _ _ _ _ _ _ Z) in W. subst cell. apply in_map_iff in W as ((y & u) & E & W). cbn [fst snd] in E. injection E as _ ->. apply (M _ _ W).
Qed.
(** Both are given at the same 1001 even capacities, those the measured profile covers; the measured one is
    read from the profile everywhere, the emulated one from the cell within its limits. *)
Theorem C102_sampled h real x pe ne r e : matching nothing h real x = Ok (pe, ne, r, e) -> exists lo hi,
  least (has_voltage real) lo /\ greatest (has_voltage real) hi /\ map fst r = map fst e /\ evenly lo hi 1001 (map fst r) /\
  (forall q v, In (q, v) r -> inside (fun p => In p real /\ snd p <> None) q v /\ v <> None) /\
  (forall q v, In (q, v) e -> reads (cell_point pe ne) q v).
Proof.
  intro H. destruct (matching_inv _ _ _ _ _ _ _ _ H) as (cell & a & b & f & g & Z & SP & F & G & EE & ER). exists a, b. subst r e. rewrite !sample_fst.
  destruct (span_spec _ _ _ _ SP) as [[(u & A1) A2] [(w & B1) B2]].
  assert (HV : forall q, has_voltage real q <-> exists v, In (q, v) (known_part real)).
  { intro q. split; [intros (v & V); exists (Some v); apply known_in; split; [exact V|discriminate]|]. intros (v & V). destruct (known_value _ _ _ V) as (y & _ & Y). exists y. exact Y. }
  split; [split; [apply HV; eauto|intros q Q; apply A2, HV, Q]|]. split; [split; [apply HV; eauto|intros q Q; apply B2, HV, Q]|].
  split; [reflexivity|]. split; [apply linspace_evenly, points_2|]. split.
  - intros q v V. apply sample_in in V as [X ->]. pose proof (sampled_inside _ _ _ _ _ q G SP X) as I. split.
    + apply (inside_iff (fun p => In p (known_part real))); [intro p; apply known_in|exact I].
    + apply (inside_known _ _ _ (known_points real) I).
  - intros q v V. apply sample_in in V as [X ->]. apply (reads_iff (fun p => In p (known_part cell))); [|apply (interp_reads _ _ _ q F)].
    intros [y w0]. split.
    + intro W. destruct (known_value _ _ _ W) as (z & -> & I). apply (zeroed_cell _ _ _ _ _ _ Z), I.
    + intros (i & a' & b' & EL & IL & E). cbn [snd] in E. subst w0. apply known_in. split; [|discriminate]. apply (zeroed_cell _ _ _ _ _ _ Z). exists i, a', b'. auto.
Qed.
(** If no capacity puts the cell within its limits, it is a ValueError; otherwise there is a result *)
Theorem C102_defined h real x pe0 ne0 : impose nothing h x = Ok (pe0, ne0) ->
  ((forall p, ~ cell_point pe0 ne0 p) -> matching nothing h real x = Err ValueError) /\
  ((exists p, cell_point pe0 ne0 p) -> (exists q, has_voltage real q) -> exists pe ne r e, matching nothing h real x = Ok (pe, ne, r, e)).
Proof.
  intro I. unfold matching, zeroed. rewrite I. cbn [bind].
  assert (W : forall q v, In (q, Some v) (windowed (cell_curve pe0 ne0)) <-> cell_point pe0 ne0 (q, Some v)).
  { intros q v. rewrite windowed_in, cell_in. unfold cell_point. cbn [fst snd]. split.
    - intros [(i & a & b & EL & ->) L]. exists i, a, b. auto.
    - intros (i & a & b & EL & L & E). assert (v = a - b) by congruence. subst v. split; [exists i, a, b; auto|exact L]. }
  split.
  - intro N. rewrite (lowest_none (windowed (cell_curve pe0 ne0))); [reflexivity|]. intros q v V. apply W in V. apply (N _ V).
  - intros ((q & v) & P) (q' & v' & V'). assert (exists y, v = Some y) as (y & ->). { destruct P as (i & a & b & _ & _ & E). cbn [snd] in E. eauto. }
    apply W in P. destruct (lowest_ok _ _ _ P) as (z & Z). rewrite Z. cbn [bind].
    assert (K : In (q', Some v') (known_part real)) by (apply known_in; split; [exact V'|discriminate]).
    destruct (span_total nothing (known_part real)) as (a & b & ->); [intro E; rewrite E in K; destruct K|]. cbn [bind]. unfold resample.
    assert (K2 : In (q - z, Some y) (known_part (shift z (windowed (cell_curve pe0 ne0))))).
    { apply known_in. split; [|discriminate]. apply in_map_iff. exists (q, Some y). auto. }
    destruct (interp1d_total nothing None None (known_part (shift z (windowed (cell_curve pe0 ne0))))) as (f & ->); [intro E; rewrite E in K2; destruct K2|]. cbn [bind].
    destruct (interp1d_total nothing None None (known_part real)) as (g & ->); [intro E; rewrite E in K; destruct K|]. cbn [bind]. do 4 eexists. reflexivity.
Qed.
End C102.

(** * C103: the reported state of the electrodes *)
(** At every sampled cell voltage: the voltages of the electrodes, and their position between their first and
    last capacity, at the place where the cell voltage is closest to it. *)
Theorem C103_electrodes pe ne info : electrode_info pe ne = Ok info -> forall n V, In (n, V) sampled_voltages -> exists i q a b q',
  nth_error pe i = Some (q, Some a) /\ nth_error ne i = Some (q', Some b) /\
  (forall j qj aj bj, electrodes_at pe ne j qj aj bj -> Qabs (a - b - V) <= Qabs (aj - bj - V)) /\
  sget info ("pe_voltage_FC" ++ n)%string = Some (Some a) /\ sget info ("ne_voltage_FC" ++ n)%string = Some (Some b) /\
  (forall lo hi, least (has_voltage pe) lo -> greatest (has_voltage pe) hi -> lo < hi ->
     exists s, sget info ("pe_soc_FC" ++ n)%string = Some (Some s) /\ s == (q - lo) / (hi - lo) /\ 0 <= s <= 1) /\
  (forall lo hi, least (has_voltage ne) lo -> greatest (has_voltage ne) hi -> lo < hi ->
     exists s, sget info ("ne_soc_FC" ++ n)%string = Some (Some s) /\ s == (q' - lo) / (hi - lo) /\ 0 <= s <= 1).
Proof.
  intros H n V IN. pose proof (info_nodup _ _ _ H) as ND. destruct (info_inv _ _ _ H) as (pv & ps & nv & ns & i0 & p0 & PV & PS & NV & NS & _ & _ & EI).
  destruct (proj2 (voltage_columns_spec _ _ _ _ PV) n V IN) as (i & p & N1 & P1 & I1). destruct (proj2 (soc_columns_spec _ _ _ _ PS) n V IN) as (i2 & p2 & N2 & P2 & I2).
  destruct (proj2 (voltage_columns_spec _ _ _ _ NV) n V IN) as (i3 & p3 & N3 & P3 & I3). destruct (proj2 (soc_columns_spec _ _ _ _ NS) n V IN) as (i4 & p4 & N4 & P4 & I4).
  rewrite N1 in N2, N3, N4. injection N2 as <-. injection N3 as <-. injection N4 as <-. rewrite P1 in P2. injection P2 as <-. rewrite P3 in P4. injection P4 as <-.
  destruct (nearest_spec _ _ _ N1) as (x & X & M). apply cell_nth in X as (q & a & b & (EA & q' & EB) & EX). rewrite P1 in EA. injection EA as ->. rewrite P3 in EB. injection EB as ->.
  cbn [fst snd] in *. subst x. exists i, q, a, b, q'. split; [exact P1|]. split; [exact P3|].
  assert (SG : forall k v, In (k, v) info -> sget info k = Some v) by (intros k v K; apply (Proofs_Hppc.sget_nodup _ _ _ ND K)).
  assert (SUB : forall k v, In (k, v) pv \/ In (k, v) ps \/ In (k, v) nv \/ In (k, v) ns -> sget info k = Some v).
  { intros k v K. apply SG. rewrite EI, !in_app_iff. tauto. }
  split; [|split; [|split; [|split]]].
  - intros j qj aj bj EL. apply (M j). apply cell_nth. exists qj, aj, bj. auto.
  - apply SUB. auto.
  - apply SUB. auto.
  - intros lo hi LO HI LT. pose proof (SUB _ _ (or_intror (or_introl I2))) as E. pose proof (known_min_spec pe) as K1. pose proof (known_max_spec pe) as K2.
    destruct (known_min pe) as [lo'|]; [|destruct (K1 _ (proj1 LO))]. destruct (known_max pe) as [hi'|]; [|destruct (K2 _ (proj1 LO))].
    pose proof (least_unique _ _ _ LO K1) as EL. pose proof (greatest_unique _ _ _ HI K2) as EH. cbn [nsub ndiv] in E.
    destruct (Qeq_bool (hi' - lo') 0) eqn:Z; [apply Qeq_bool_iff in Z; lra|]. eexists. split; [exact E|].
    assert (HQ : has_voltage pe q) by (exists a; apply nth_error_In with i; exact P1). pose proof (proj2 LO q HQ). pose proof (proj2 HI q HQ).
    split; [rewrite EL, EH; reflexivity|]. split; [apply Qle_shift_div_l; lra|apply Qle_shift_div_r; lra].
  - intros lo hi LO HI LT. pose proof (SUB _ _ (or_intror (or_intror (or_intror I4)))) as E. pose proof (known_min_spec ne) as K1. pose proof (known_max_spec ne) as K2.
    destruct (known_min ne) as [lo'|]; [|destruct (K1 _ (proj1 LO))]. destruct (known_max ne) as [hi'|]; [|destruct (K2 _ (proj1 LO))].
    pose proof (least_unique _ _ _ LO K1) as EL. pose proof (greatest_unique _ _ _ HI K2) as EH. cbn [nsub ndiv] in E.
    destruct (Qeq_bool (hi' - lo') 0) eqn:Z; [apply Qeq_bool_iff in Z; lra|]. eexists. split; [exact E|].
    assert (HQ : has_voltage ne q') by (exists b; apply nth_error_In with i; exact P3). pose proof (proj2 LO q' HQ). pose proof (proj2 HI q' HQ).
    split; [rewrite EL, EH; reflexivity|]. split; [apply Qle_shift_div_l; lra|apply Qle_shift_div_r; lra].
Qed.
(** The capacities: of the cell at 4.2 V, of each electrode between its first and last capacity, and of the
    part both electrodes share; the last is no larger than either. *)
Theorem C103_capacities pe ne info : map fst pe = map fst ne -> electrode_info pe ne = Ok info -> exists i qfc a b p1 p2 n1 n2 l1 l2 s1 s2 s3,
  electrodes_at pe ne i qfc a b /\ (forall j qj aj bj, electrodes_at pe ne j qj aj bj -> Qabs (a - b - (42 # 10)) <= Qabs (aj - bj - (42 # 10))) /\
  least (has_voltage pe) p1 /\ greatest (has_voltage pe) p2 /\ least (has_voltage ne) n1 /\ greatest (has_voltage ne) n2 /\
  least (fun q => exists j aj bj, electrodes_at pe ne j q aj bj) l1 /\ greatest (fun q => exists j aj bj, electrodes_at pe ne j q aj bj) l2 /\
  sget info "Q_fc" = Some (Some qfc) /\ sget info "Q_pe" = Some (Some s1) /\ s1 == p2 - p1 /\ sget info "Q_ne" = Some (Some s2) /\ s2 == n2 - n1 /\
  sget info "Q_li" = Some (Some s3) /\ s3 == l2 - l1 /\ 0 <= s3 <= s1 /\ s3 <= s2.
Proof.
  intros AX H. pose proof (info_nodup _ _ _ H) as ND. destruct (info_inv _ _ _ H) as (pv & ps & nv & ns & i & p & _ & _ & _ & _ & NR & P & EI).
  destruct (nearest_spec _ _ _ NR) as (x & X & M). apply cell_nth in X as (q & a & b & EL & EX). subst x.
  assert (CP : nth_error (cell_curve pe ne) i = Some p) by exact P. destruct p as [pq pw]. destruct (cell_abscissa _ _ _ _ _ P) as (w & W). pose proof EL as (EL1 & q' & EL2).
  rewrite EL1 in W. assert (q = pq) by congruence. subst pq. cbn [fst] in *.
  assert (CV : forall y, has_voltage (cell_curve pe ne) y <-> exists j aj bj, electrodes_at pe ne j y aj bj).
  { intro y. unfold has_voltage. split; [intros (v & V); apply cell_in in V as (j & aj & bj & E & _); eauto|]. intros (j & aj & bj & E). exists (aj - bj). apply cell_in. eauto. }
  assert (SAME : forall j y aj bj, electrodes_at pe ne j y aj bj -> has_voltage pe y /\ has_voltage ne y).
  { intros j y aj bj (E1 & y' & E2). split; [exists aj; apply nth_error_In with j; exact E1|]. assert (y' = y).
    { assert (E3 : nth_error (map fst pe) j = Some y) by (rewrite nth_error_map, E1; reflexivity). assert (E4 : nth_error (map fst ne) j = Some y') by (rewrite nth_error_map, E2; reflexivity). congruence. }
    subst y'. exists bj. apply nth_error_In with j. exact E2. }
  destruct (SAME _ _ _ _ EL) as [HP HN].
  pose proof (known_min_spec pe) as K1. pose proof (known_max_spec pe) as K2. pose proof (known_min_spec ne) as K3. pose proof (known_max_spec ne) as K4.
  pose proof (known_min_spec (cell_curve pe ne)) as K5. pose proof (known_max_spec (cell_curve pe ne)) as K6.
  assert (HC : has_voltage (cell_curve pe ne) q) by (apply CV; eauto).
  destruct (known_min pe) as [p1|] eqn:E1; [|destruct (K1 _ HP)]. destruct (known_max pe) as [p2|] eqn:E2; [|destruct (K2 _ HP)].
  destruct (known_min ne) as [n1|] eqn:E3; [|destruct (K3 _ HN)]. destruct (known_max ne) as [n2|] eqn:E4; [|destruct (K4 _ HN)].
  destruct (known_min (cell_curve pe ne)) as [l1|] eqn:E5; [|destruct (K5 _ HC)]. destruct (known_max (cell_curve pe ne)) as [l2|] eqn:E6; [|destruct (K6 _ HC)].
  exists i, q, a, b, p1, p2, n1, n2, l1, l2, (p2 - p1), (n2 - n1), (l2 - l1). cbn [nsub] in EI.
  assert (SG : forall k v, In (k, v) [("Q_fc"%string, Some q); ("Q_pe"%string, Some (p2 - p1)); ("Q_ne"%string, Some (n2 - n1)); ("Q_li"%string, Some (l2 - l1))] -> sget info k = Some v).
  { intros k v K. apply (Proofs_Hppc.sget_nodup _ _ _ ND). rewrite EI, !in_app_iff. auto. }
  split; [exact EL|]. split; [intros j qj aj bj E; apply (M j); apply cell_nth; exists qj, aj, bj; auto|].
  split; [exact K1|]. split; [exact K2|]. split; [exact K3|]. split; [exact K4|].
  split; [split; [apply CV, K5|intros y Y; apply (proj2 K5), CV, Y]|]. split; [split; [apply CV, K6|intros y Y; apply (proj2 K6), CV, Y]|].
  split; [apply SG; cbn; auto|]. split; [apply SG; cbn; auto|]. split; [reflexivity|]. split; [apply SG; cbn; auto|]. split; [reflexivity|]. split; [apply SG; cbn; auto|]. split; [reflexivity|].
  destruct K5 as [K5 K5']. destruct K6 as [K6 K6']. pose proof (K5' _ K6). apply CV in K5 as (j5 & a5 & b5 & C5). apply CV in K6 as (j6 & a6 & b6 & C6).
  destruct (SAME _ _ _ _ C5) as [D1 D2]. destruct (SAME _ _ _ _ C6) as [D3 D4].
  pose proof (proj2 K1 _ D1). pose proof (proj2 K2 _ D3). pose proof (proj2 K3 _ D2). pose proof (proj2 K4 _ D4). lra.
Qed.
(** There is a result as soon as there is a capacity at which both electrodes have a voltage. *)
Theorem C103_defined pe ne : (exists i q a b, electrodes_at pe ne i q a b) -> exists info, electrode_info pe ne = Ok info.
Proof. intros (i & q & a & b & E). apply (info_total _ _ _ _ _ _ E). Qed.
(** For a cell whose voltage rises with its capacity, the reported cell capacity lies between 0 and that of the
    part both electrodes share. *)
Theorem C103_full_cell nothing h real x pe ne r e info : matching nothing h real x = Ok (pe, ne, r, e) -> electrode_info pe ne = Ok info ->
  (forall i j q a b q' a' b', electrodes_at pe ne i q a b -> electrodes_at pe ne j q' a' b' -> a - b <= a' - b' -> q <= q') ->
  exists qfc qli, sget info "Q_fc" = Some (Some qfc) /\ sget info "Q_li" = Some (Some qli) /\ 0 <= qfc <= qli.
Proof.
  intros M IN RISE. assert (AX : map fst pe = map fst ne).
  { destruct (matching_inv _ _ _ _ _ _ _ _ M) as (cell & a0 & b0 & f & g & Z & _). destruct (zeroed_inv _ _ _ _ _ _ Z) as (pe0 & ne0 & z & I & _ & EP & EN & _).
    destruct (impose_inv _ _ _ _ _ I) as (neg & f' & g' & a1 & b1 & a2 & b2 & _ & _ & _ & _ & _ & _ & _ & EP0 & EN0). subst pe ne pe0 ne0. unfold shift, sample_on. rewrite !map_map. reflexivity. }
  destruct (C102_zero _ _ _ _ _ _ _ _ M) as (pe0 & ne0 & z & _ & _ & _ & v & (i0 & a0 & b0 & EL0 & IL0 & EV0) & _). cbn [fst snd] in *.
  destruct (C103_capacities _ _ _ AX IN) as (i & qfc & a & b & p1 & p2 & n1 & n2 & l1 & l2 & s1 & s2 & s3 & EL & NEAR & _ & _ & _ & _ & L1 & L2 & FC & _ & _ & _ & _ & LI & E3 & _).
  exists qfc, s3. split; [exact FC|]. split; [exact LI|]. specialize (NEAR _ _ _ _ EL0). destruct IL0 as [IL1 IL2].
  assert (V : a0 - b0 <= a - b). { apply Qnot_lt_le. intro LT. rewrite (Qabs_neg (a - b - (42 # 10))), (Qabs_neg (a0 - b0 - (42 # 10))) in NEAR by lra. lra. }
  pose proof (RISE _ _ _ _ _ _ _ _ EL0 EL V) as Q0. assert (l1 <= z - z) by (apply (proj2 L1); eauto). assert (qfc <= l2) by (apply (proj2 L2); eauto). lra.
Qed.
(** The reported capacity of the positive electrode is the capacity of the guess, up to two steps of the grid,
    if its table goes from SOC 0 to SOC 100; the same for the negative one. *)
Definition full_table (t : table) : Prop := least (fun s => exists p, In p t /\ s = fst p) 0 /\ greatest (fun s => exists p, In p t /\ s = fst p) 100.
Theorem C103_recovered nothing h x pe ne cell neg lo hi : zeroed nothing h x = Ok (pe, ne, cell) -> 0 < g_pe x -> 0 < g_ne x ->
  blend_electrodes nothing (t_ne h) (t_ne2_pos h) (t_ne2_neg h) (g_x2 x) = Ok neg -> evenly lo hi 1001 (map fst pe) ->
  (full_table (t_pe h) -> (hi - lo) / 1000 <= g_pe x -> exists p1 p2, least (has_voltage pe) p1 /\ greatest (has_voltage pe) p2 /\ Qabs (p2 - p1 - g_pe x) <= 2 * ((hi - lo) / 1000)) /\
  (full_table neg -> (hi - lo) / 1000 <= g_ne x -> exists p1 p2, least (has_voltage ne) p1 /\ greatest (has_voltage ne) p2 /\ Qabs (p2 - p1 - g_ne x) <= 2 * ((hi - lo) / 1000)).
Proof.
  intros Z P1 P2 BL EV. destruct (zeroed_inv _ _ _ _ _ _ Z) as (pe0 & ne0 & z & I & L & EP & EN & EC).
  destruct (impose_inv _ _ _ _ _ I) as (neg' & f & g & a1 & b1 & a2 & b2 & BL' & L1 & L2 & S1 & S2 & F & G & EP0 & EN0). rewrite BL in BL'. injection BL' as <-.
  set (A := min_q a1 a2) in *. set (B := max_q b1 b2) in *.
  destruct (span_spec _ _ _ _ S1) as [M1 N1]. destruct (span_spec _ _ _ _ S2) as [M2 N2].
  assert (AA : A <= a1 /\ A <= a2) by apply min_q_spec. assert (BB : b1 <= B /\ b2 <= B) by apply max_q_spec.
  assert (ENDS : lo == A - z /\ hi == B - z).
  { destruct EV as [_ EV]. assert (E0 : nth_error (map fst pe) 0 = Some (A + inject_Z (Z.of_nat 0) * ((B - A) / inject_Z (Z.of_nat (points - 1))) - z)).
    { subst pe pe0. unfold shift. rewrite map_map. cbn [fst]. rewrite <- map_map with (f := fst) (g := fun q => q - z). rewrite sample_fst, nth_error_map, linspace_nth; [reflexivity|apply points_2|unfold points; lia]. }
    assert (E1 : nth_error (map fst pe) 1000 = Some (A + inject_Z (Z.of_nat 1000) * ((B - A) / inject_Z (Z.of_nat (points - 1))) - z)).
    { subst pe pe0. unfold shift. rewrite map_map. cbn [fst]. rewrite <- map_map with (f := fst) (g := fun q => q - z). rewrite sample_fst, nth_error_map, linspace_nth; [reflexivity|apply points_2|unfold points; lia]. }
    apply EV in E0, E1. change (inject_Z (Z.of_nat (points - 1))) with 1000 in *. change (inject_Z (Z.of_nat (1001 - 1))) with 1000 in *.
    change (inject_Z (Z.of_nat 0)) with 0 in *. change (inject_Z (Z.of_nat 1000)) with 1000 in *.
    assert (K : forall c d, c + 1000 * ((d - c) / 1000) == d) by (intros; field). rewrite !K in E1. lra. }
  destruct ENDS as [EL EH]. assert (ED : (hi - lo) / 1000 == (B - A) / 1000) by (rewrite EL, EH; field).
  assert (TABLE : forall t k d ff c1 c2, 0 < k -> interp1d nothing None None (rescale k d t) = Ok ff -> least (fun y => exists v, In (y, v) (rescale k d t)) c1 -> greatest (fun y => exists v, In (y, v) (rescale k d t)) c2 ->
    A <= c1 -> c2 <= B -> full_table t -> (hi - lo) / 1000 <= k ->
    exists p1 p2, least (has_voltage (shift z (sample_on ff (linspace A B points)))) p1 /\ greatest (has_voltage (shift z (sample_on ff (linspace A B points)))) p2 /\ Qabs (p2 - p1 - k) <= 2 * ((hi - lo) / 1000)).
  { intros t k d ff c1 c2 K FF LO HI CA CB [[(s0 & T0 & E0) T0'] [(s1 & T1 & E1) T1']] FINE.
    assert (C1 : c1 == d). { destruct LO as [LO LO']. apply rescale_span in LO as (s & SI & ->); [|exact K]. assert (0 <= fst s) by (apply T0'; eauto).
      assert (fst s / 100 * k + d <= fst s0 / 100 * k + d) by (apply LO', rescale_span; eauto). rewrite <- E0 in H0. assert (Z0 : 0 / 100 * k + d == d) by (unfold Qdiv; ring). assert (0 <= fst s / 100) by (apply Qle_shift_div_l; lra). assert (0 <= fst s / 100 * k) by (apply Qmult_le_0_compat; lra). lra. }
    assert (C2 : c2 == k + d). { destruct HI as [HI HI']. apply rescale_span in HI as (s & SI & ->); [|exact K]. assert (fst s <= 100) by (apply T1'; eauto).
      assert (fst s1 / 100 * k + d <= fst s / 100 * k + d) by (apply HI', rescale_span; eauto). rewrite <- E1 in H0.
      assert (Z1 : 100 / 100 * k + d == k + d) by field. assert (fst s / 100 <= 1) by (apply Qle_shift_div_r; lra).
      assert (fst s / 100 * k <= 1 * k) by (apply Qmult_le_compat_r; lra). lra. }
    assert (AB : A < B) by lra.
    destruct (sampled_capacity nothing (rescale k d t) ff A B c1 c2 FF (rescale_known k d t) LO HI AB CA CB) as (u & w & LU & GW & U & W); [lra|].
    exists (u - z), (w - z). split; [|split].
    - destruct LU as [U1 U2]. split; [apply shift_voltage; eauto|]. intros y Y. apply shift_voltage in Y as (y0 & Y & ->). specialize (U2 _ Y). lra.
    - destruct GW as [U1 U2]. split; [apply shift_voltage; eauto|]. intros y Y. apply shift_voltage in Y as (y0 & Y & ->). specialize (U2 _ Y). lra.
    - rewrite ED. apply Qabs_Qle_condition. set (dd := (B - A) / 1000) in *. clearbody dd. lra. }
  subst pe ne pe0 ne0. split.
  - apply (TABLE _ _ _ _ _ _ P1 F M1 N1); [tauto|tauto].
  - apply (TABLE _ _ _ _ _ _ P2 G M2 N2); [tauto|tauto].
Qed.

(** * C104: the errors the fit minimises *)
Definition alike (l l' : curve) : Prop := Forall2 (fun p p' : Q * num => fst p' == fst p /\ snd p' = snd p) l l'.
Section C104.
Variable nothing : exn.
Lemma chosen_all (r e : curve) : (forall p, In p r -> snd p <> None) -> length r = length e -> chosen_by r e = e.
Proof.
  revert e. unfold chosen_by. induction r as [|p r IH]; intros [|p' e] K L; cbn in L; try discriminate; [reflexivity|].
  cbn [combine filter fst]. assert (N : snd p <> None) by (apply K; left; reflexivity). unfold is_known at 1. destruct (snd p); [|congruence].
  cbn [map snd]. rewrite IH; [reflexivity|intros; apply K; right; assumption|congruence].
Qed.
Lemma known_all (l : curve) : (forall p, In p l -> snd p <> None) -> known_part l = l.
Proof.
  unfold known_part. induction l as [|p l IH]; intro K; [reflexivity|]. cbn [filter]. assert (N : snd p <> None) by (apply K; left; reflexivity). unfold is_known at 1.
  destruct (snd p); [|congruence]. rewrite IH; [reflexivity|]. intros; apply K; right; assumption.
Qed.
Lemma span_sampled f g grid : span nothing (sample_on f grid) = span nothing (sample_on g grid).
Proof. unfold span. assert (E : abscissas (sample_on f grid) = abscissas (sample_on g grid)); [|rewrite E; reflexivity]. unfold abscissas, sample_on. rewrite !map_map. reflexivity. Qed.
(** Resampling the compared curves once more does not change them. *)
Theorem C104_resampled h real x pe ne r e q1 q2 : matching nothing h real x = Ok (pe, ne, r, e) -> has_voltage real q1 -> has_voltage real q2 -> q1 < q2 ->
  exists r' e', v_over_q nothing h real x = Ok (pe, ne, r', e') /\ alike r r' /\ alike e e'.
Proof.
  intros M H1 H2 LT. destruct (C102_sampled _ _ _ _ _ _ _ _ M) as (lo & hi & LO & HI & _ & _ & RK & _).
  destruct (matching_inv _ _ _ _ _ _ _ _ M) as (cell & a & b & f & g & Z & SP & F & G & EE & ER).
  assert (AB : a < b). { destruct (span_spec _ _ _ _ SP) as [[_ A] [_ B]]. assert (a <= q1) by (apply A; destruct H1 as (v & V); exists (Some v); apply known_in; split; [exact V|discriminate]).
    assert (q2 <= b) by (apply B; destruct H2 as (v & V); exists (Some v); apply known_in; split; [exact V|discriminate]). lra. }
  assert (KR : forall p, In p r -> snd p <> None) by (intros [q v] P; apply (RK q v P)).
  assert (NR : r <> []). { subst r. intro E. apply (f_equal (@length _)) in E. unfold sample_on in E. rewrite map_length, linspace_length in E. discriminate. }
  assert (NE : e <> []). { subst e. intro E. apply (f_equal (@length _)) in E. unfold sample_on in E. rewrite map_length, linspace_length in E. discriminate. }
  assert (LEN : length r = length e) by (subst r e; unfold sample_on; rewrite !map_length; reflexivity).
  unfold v_over_q. rewrite M. cbn [bind]. rewrite (known_all r KR), (chosen_all r e KR LEN). unfold resample.
  destruct (span_total nothing r NR) as (a' & b' & SP'). rewrite SP'. cbn [bind].
  destruct (interp1d_total nothing None None e NE) as (fe & FE). rewrite FE. cbn [bind]. destruct (interp1d_total nothing None None r NR) as (fr & FR). rewrite FR. cbn [bind].
  do 2 eexists. split; [reflexivity|]. subst r e. split.
  - apply (sample_again nothing _ g a b a' b' fr AB FR SP' eq_refl).
  - apply (sample_again nothing _ f a b a' b' fe AB FE); [|reflexivity]. rewrite <- SP'. apply span_sampled.
Qed.
Section Objective.
Variable slope : list num -> list num -> list num.
Variable distance : list (Q * Q) -> list (Q * Q) -> (Q * Q) -> (Q * Q) -> Q.
Lemma complete_valued l : valued l (complete l).
Proof.
  unfold valued, complete. induction l as [|[q v] l IH]; [reflexivity|]. cbn [flat_map filter snd fst]. destruct v as [v|]; [|exact IH]. cbn [app map fst snd]. rewrite IH. reflexivity.
Qed.
(** The voltage error is the mean, over the measured points, of the distance to the closest emulated point;
    it is not negative, and zero if every measured point is also an emulated one. *)
Theorem C104_voltage_error h real x pe ne r e : v_over_q nothing h real x = Ok (pe, ne, r, e) ->
  (exists q, has_voltage r q) -> (exists q, has_voltage e q) ->
  exists m xr xe, error_of nothing slope distance "V-Q" h real x = Ok (Some m) /\ valued r xr /\ valued e xe /\ mean_nearest distance xr xe m /\
    ((forall p q, 0 <= distance xr xe p q) -> 0 <= m) /\
    ((forall p q, 0 <= distance xr xe p q) -> (forall p, In p xr -> exists q, In q xe /\ distance xr xe p q == 0) -> m == 0).
Proof.
  intros V (q1 & v1 & H1) (q2 & v2 & H2). unfold error_of. cbn [String.eqb Ascii.eqb Bool.eqb]. unfold error_vq. rewrite V. cbn [bind].
  assert (IN : forall l q v, In (q, Some v) l -> In (q, v) (complete l)) by (intros l q v I; unfold complete; apply in_flat_map; exists (q, Some v); split; [exact I|left; reflexivity]).
  assert (N1 : complete r <> []) by (intro E; apply IN in H1; rewrite E in H1; destruct H1). assert (N2 : complete e <> []) by (intro E; apply IN in H2; rewrite E in H2; destruct H2).
  assert (T : exists d, mean_distance distance (complete r) (complete e) = Ok d).
  { unfold mean_distance. destruct (complete r) as [|p0 l0]; [congruence|]. generalize (p0 :: l0) at 1. intro xa.
    assert (G : forall l, exists ds, mapM (closest_of distance xa (complete e)) l = Ok ds).
    { induction l as [|p l (ds & IH)]; [exists []; reflexivity|]. cbn [mapM]. unfold closest_of at 1. destruct (complete e); [congruence|]. cbn [bind]. rewrite IH. cbn [bind]. eauto. }
    destruct (G (p0 :: l0)) as (ds & ->). cbn [bind]. eauto. }
  destruct T as (d & T). rewrite T. destruct (mean_distance_spec distance _ _ _ N1 T) as (m & -> & MN). exists m, (complete r), (complete e).
  split; [reflexivity|]. split; [apply complete_valued|]. split; [apply complete_valued|]. split; [exact MN|]. split.
  - intro P. apply (mean_nearest_nonneg distance _ _ _ P N1 MN).
  - intros P Z. apply (mean_nearest_zero distance _ _ _ P Z MN).
Qed.
(** A guess that cannot be evaluated has the error 100 *)
Theorem C104_bad_guess error_type h real x : matching nothing h real x = Err ValueError -> error_of nothing slope distance error_type h real x = Ok (Some 100).
Proof.
  intro M. unfold error_of. destruct (String.eqb error_type "V-Q"); [|destruct (String.eqb error_type "dVdQ"); [|destruct (String.eqb error_type "dQdV")]];
    unfold error_vq, error_dvdq, error_dqdv, v_over_q, dqdv_profiles; rewrite M; reflexivity.
Qed.
(** Finding: with half-cell tables of a length other than 1001, this is so for every guess; the fit reports
    arbitrary parameters. *)
Theorem C104_table_length_refuted error_type h real : t_ne2_pos h = [] -> t_pe h <> [] -> t_ne h <> [] -> length (t_pe h) <> 1001%nat \/ length (t_ne h) <> 1001%nat ->
  forall x, error_of nothing slope distance error_type h real x = Ok (Some 100).
Proof.
  intros N2 N1 N3 L x. apply C104_bad_guess. unfold matching, zeroed. rewrite (impose_length nothing h x (t_ne h)); [reflexivity| |exact N1|exact N3|exact L].
  unfold blend_electrodes. rewrite N2. reflexivity.
Qed.
(** Finding: an unknown type of error is not rejected but taken for the voltage error. *)
Theorem C104_unknown_type_refuted error_type : ~ In error_type ["V-Q"; "dVdQ"; "dQdV"]%string ->
  error_of nothing slope distance error_type = error_of nothing slope distance "V-Q".
Proof.
  intro N. unfold error_of. destruct (String.eqb_spec error_type "V-Q") as [->|A]; [reflexivity|]. destruct (String.eqb_spec error_type "dVdQ") as [->|B]; [destruct N; cbn; auto|].
  destruct (String.eqb_spec error_type "dQdV") as [->|C]; [destruct N; cbn; auto|]. reflexivity.
Qed.
(** Finding: for emulated profiles, "dQdV" minimises the dV/dQ error. *)
Theorem C104_synthetic_refuted h real x : synthetic_error_of nothing slope distance "dQdV" h real x = synthetic_error_of nothing slope distance "dVdQ" h real x.
Proof. reflexivity. Qed.
(** Otherwise both ways of fitting have the same errors, as long as no RuntimeError arises. *)
Theorem C104_synthetic error_type h real x : error_type <> "dQdV"%string -> error_of nothing slope distance error_type h real x <> Err RuntimeError ->
  synthetic_error_of nothing slope distance error_type h real x = error_of nothing slope distance error_type h real x.
Proof.
  intros N E. unfold synthetic_error_of, error_of in *. destruct (String.eqb error_type "V-Q"); [destruct (error_vq _ _ _ _ _) as [|[]]; congruence|].
  destruct (String.eqb error_type "dVdQ"); [destruct (error_dvdq _ _ _ _ _ _) as [|[]]; congruence|].
  destruct (String.eqb_spec error_type "dQdV") as [->|_]; [congruence|]. destruct (error_vq _ _ _ _ _) as [|[]]; congruence.
Qed.
End Objective.
End C104.

(** * C105: the features *)
Section C105.
Variable nothing : exn.
Variable slope : list num -> list num -> list num.
Variable distance : list (Q * Q) -> list (Q * Q) -> (Q * Q) -> (Q * Q) -> Q.
Variable optimise : (guess -> result num) -> bounds -> result (guess * num).
Let wrapper := wrapper nothing slope distance optimise.
(** A row holds the error, the best guess, and the state of the electrodes at this guess, under the names of
    the columns. *)
Theorem C105_row a data cycle row : wrapper a data cycle = Ok row -> exists real x error pe ne r e info,
  candidate_profile nothing (f_type a) (f_step a) data cycle = Ok real /\
  optimise (error_of nothing slope distance (f_error a) (f_cells a) real) [(0, 3); (5 # 2, 13 # 2); (5 # 2, 13 # 2); (1, 1)] = Ok (x, error) /\
  matching nothing (f_cells a) real x = Ok (pe, ne, r, e) /\ electrode_info pe ne = Ok info /\
  length row = 73%nat /\ length result_columns = 73%nat /\ NoDup result_columns /\
  combine result_columns row = [("rmse_error", error); ("LLI_opt", Some (g_lli x)); ("Q_pe_opt", Some (g_pe x)); ("Q_ne_opt", Some (g_ne x)); ("x_NE_2", Some (g_x2 x))]%string ++ info.
Proof.
  intro H. unfold wrapper, Model_Intracell.wrapper in H. inv H real R. inv H xe OP. destruct xe as [x error]. inv H ps DP. destruct ps as [[[pe ne] dr] de].
  unfold dqdv_profiles in DP. inv DP ms MA. destruct ms as [[[pe' ne'] r] e]. inv DP d1 D1. inv DP d2 D2. injection DP as -> -> -> ->.
  inv H info IN. match type of H with Ok ?y = _ => assert (E : row = y) by congruence end. clear H.
  exists real, x, error, pe, ne, r, e, info. split; [exact R|]. split; [exact OP|]. split; [exact MA|]. split; [exact IN|].
  pose proof (info_names _ _ _ IN) as NM. assert (LI : length info = 68%nat) by (rewrite <- (map_length fst), NM; reflexivity).
  split; [subst row; rewrite app_length, map_length, LI; reflexivity|]. split; [reflexivity|]. split; [apply columns_distinct|].
  subst row. assert (RC : result_columns = ["rmse_error"; "LLI_opt"; "Q_pe_opt"; "Q_ne_opt"; "x_NE_2"]%string ++ map fst info) by (rewrite NM; reflexivity).
  rewrite RC. cbn [app combine]. do 5 f_equal. clear. induction info as [|[k v] info IH]; [reflexivity|]. cbn [map combine fst snd]. rewrite IH. reflexivity.
Qed.
Lemma usable_zero type summary c : In c (chosen_cycles threshold type summary) <-> usable type 0 summary c.
Proof.
  rewrite chosen_in. assert (E : threshold == 0) by reflexivity. unfold usable. split; intros (d & q & A & B & C & D & L); exists d, q; repeat split; auto; rewrite E in *; exact L.
Qed.
(** One row for every diagnostic of the type that still discharges, in the order of the summary; the row of a
    diagnostic depends on its own charge only. *)
Theorem C105_rows a data summary rows : NoDup (chosen_cycles threshold (f_type a) summary) ->
  cycles_features nothing slope distance optimise a data summary = Ok rows ->
  map fst rows = chosen_cycles threshold (f_type a) summary /\ (forall c, In c (map fst rows) <-> usable (f_type a) 0 summary c) /\
  forall c row, In (c, row) rows -> wrapper a data c = Ok row.
Proof.
  intros N H. unfold cycles_features in H. rewrite (rows_of_distinct _ _ _ N H). split; [reflexivity|]. split.
  - intro c. apply usable_zero.
  - apply (rows_of_ok _ _ _ _ H). intros c r [].
Qed.
Theorem C105_repeated a data summary rows : cycles_features nothing slope distance optimise a data summary = Ok rows ->
  NoDup (map fst rows) /\ (forall c, In c (map fst rows) <-> usable (f_type a) 0 summary c) /\ forall c row, In (c, row) rows -> wrapper a data c = Ok row.
Proof.
  intro H. unfold cycles_features in H. rewrite (rows_of_fst _ _ _ _ H). cbn [map]. destruct (add_new_spec (chosen_cycles threshold (f_type a) summary) [] (NoDup_nil _)) as [A B].
  split; [exact A|]. split; [intro c; rewrite B, usable_zero; cbn [In]; tauto|]. apply (rows_of_ok _ _ _ _ H). intros c r [].
Qed.
Theorem C105_local a data data' cycle : f_step a = 0%Z ->
  filter (fun r => String.eqb (i_type r) (f_type a) && Z.eqb (i_cycle r) cycle && Z.eqb (i_step r) 0) data =
  filter (fun r => String.eqb (i_type r) (f_type a) && Z.eqb (i_cycle r) cycle && Z.eqb (i_step r) 0) data' ->
  wrapper a data cycle = wrapper a data' cycle.
Proof.
  intros S0 E. unfold wrapper, Model_Intracell.wrapper. rewrite S0.
  rewrite <- (proj2 (C100_local nothing (f_type a) data data cycle (fun r _ _ _ => iff_refl _))), E, (proj2 (C100_local nothing (f_type a) data' data' cycle (fun r _ _ _ => iff_refl _))). reflexivity.
Qed.
(** All the rows are there if every usable diagnostic can be fitted. *)
Theorem C105_made a data summary : (forall c, usable (f_type a) 0 summary c -> exists row, wrapper a data c = Ok row) ->
  exists rows, cycles_features nothing slope distance optimise a data summary = Ok rows.
Proof. intro T. apply rows_of_total. intros c C. apply T, usable_zero, C. Qed.
(** A run is accepted iff it has both tables, a usable diagnostic of the type and an RPT. *)
Theorem C105_accepted type has_both summary : intracell_valid threshold type has_both summary = true <->
  has_both = true /\ (exists c, usable type 0 summary c) /\ exists d, In d summary /\ contains "rpt" (d_type d) = true.
Proof.
  unfold intracell_valid, check_diagnostic_validation. destruct has_both; cbn [andb]; [|split; [discriminate|intros [? _]; discriminate]].
  destruct summary as [|d0 summary]; [cbn; split; [discriminate|intros (_ & (c & d & q & [] & _) & _)]|]. remember (d0 :: summary) as s eqn:ES. cbn [length]. replace (length s) with (S (length summary)) by (subst s; reflexivity).
  destruct (chosen_cycles threshold type s) as [|c l] eqn:C.
  - split; [discriminate|]. intros (_ & (c & U) & _). apply usable_zero in U. rewrite C in U. destruct U.
  - rewrite existsb_exists. split.
    + intros (d & D & R). split; [reflexivity|]. split; [|exists d; auto]. exists c. apply usable_zero. rewrite C. left. reflexivity.
    + intros (_ & _ & d & D & R). exists d. auto.
Qed.
(** The features of a run: the two first diagnostics. *)
Theorem C105_two a data summary c0 c1 rest fs : chosen_cycles threshold (f_type a) summary = c0 :: c1 :: rest -> c0 <> c1 ->
  two_features nothing slope distance optimise a data summary = Ok fs -> exists r0 r1,
  wrapper a data c0 = Ok r0 /\ wrapper a data c1 = Ok r1 /\
  fs = map (fun p => ("diag_0_" ++ fst p, snd p)%string) (combine result_columns r0) ++ map (fun p => ("diag_1_" ++ fst p, snd p)%string) (combine result_columns r1).
Proof.
  intros C N H. unfold two_features in H. rewrite C in H. cbn [firstn] in H. inv H rows R. cbn [rows_of] in R. inv R r0 R0. inv R r1 R1. cbn [d_update] in R.
  rewrite (proj2 (Z.eqb_neq c0 c1) N) in R. injection R as <-. cbn [first_two] in H. exists r0, r1. split; [exact R0|]. split; [exact R1|].
  match type of H with Ok ?y = _ => assert (E : fs = y) by congruence end. clear H.
  destruct (C105_row _ _ _ _ R0) as (? & ? & ? & ? & ? & ? & ? & ? & _ & _ & _ & _ & L0 & LC & _). destruct (C105_row _ _ _ _ R1) as (? & ? & ? & ? & ? & ? & ? & ? & _ & _ & _ & _ & L1 & _).
  subst fs. assert (CM : forall (f : string -> string) (u : list string) (w : list num), combine (map f u) w = map (fun p => (f (fst p), snd p)) (combine u w)).
  { intros f. induction u as [|k u IH]; intros [|v w]; cbn; [reflexivity|reflexivity|reflexivity|]. rewrite IH. reflexivity. }
  assert (CA : forall (u1 u2 : list string) (w1 w2 : list num), length u1 = length w1 -> combine (u1 ++ u2) (w1 ++ w2) = combine u1 w1 ++ combine u2 w2).
  { clear. induction u1 as [|k u1 IH]; intros u2 [|v w1] w2 L; cbn in L; try discriminate; cbn [combine app]; [reflexivity|]. rewrite IH by congruence. reflexivity. }
  rewrite CA by (rewrite map_length; congruence). rewrite (CM (fun n => "diag_0_" ++ n)%string), (CM (fun n => "diag_1_" ++ n)%string). reflexivity.
Qed.
(** Finding: a run with one usable diagnostic is accepted and then raises an IndexError. *)
Theorem C105_single_refuted a data summary c row : chosen_cycles threshold (f_type a) summary = [c] -> wrapper a data c = Ok row ->
  two_features nothing slope distance optimise a data summary = Err IndexError.
Proof. intros C W. unfold two_features. rewrite C. cbn [firstn rows_of]. fold wrapper. rewrite W. reflexivity. Qed.
End C105.

(** * C106: blending two materials *)
Section C106.
Variable nothing : exn.
(** Without a second material, the first is taken as it is. *)
Theorem C106_one_material t1 t2_neg x : blend_electrodes nothing t1 [] t2_neg x = Ok t1.
Proof. reflexivity. Qed.
(** Otherwise the sign of the fraction chooses the curve of the second material and its magnitude is the weight.
    At each of 1001 even voltages over both materials, the SOC is the weighted mean of the SOCs; the blend is then
    read at 1001 SOCs from 0 to 100, and the part where it has a voltage is stretched to end at SOC 100. *)
Theorem C106_blend t1 t2_pos t2_neg x t : t2_pos <> [] -> blend_electrodes nothing t1 t2_pos t2_neg x = Ok t -> exists t2 w,
  ((t2_neg = [] /\ t2 = t2_pos /\ w = Qabs x) \/ (t2_neg <> [] /\ 0 < x /\ t2 = t2_pos /\ w = x) \/ (t2_neg <> [] /\ x <= 0 /\ t2 = t2_neg /\ w = Qabs x)) /\
  (distinct_voltages t1 -> distinct_voltages t2 -> (2 <= length t1)%nat -> (2 <= length t2)%nat -> exists lo hi vs l full a b,
    least (fun v => exists p, In p (t1 ++ t2) /\ v = snd p) lo /\ greatest (fun v => exists p, In p (t1 ++ t2) /\ v = snd p) hi /\
    evenly lo hi 1001 vs /\ Forall2 (fun v p => snd p = Some v /\ blended t1 t2 w v (fst p)) vs l /\
    evenly 0 100 1001 (map fst full) /\ (forall s v, In (s, v) full -> reads (fun p => In p l) s v) /\
    least (has_voltage full) a /\ greatest (has_voltage full) b /\ 0 < b /\
    evenly (a / b * 100) 100 1001 (map fst t) /\
    forall s v, In (s, v) t -> inside (fun p => In p full /\ snd p <> None) (s * b / 100) (Some v)).
Proof.
  intros N H. unfold blend_electrodes in H. destruct t2_pos as [|p0 l0]; [congruence|]. set (t2p := p0 :: l0) in *. clearbody t2p.
  assert (CASE : exists t2 w, ((t2_neg = [] /\ t2 = t2p /\ w = Qabs x) \/ (t2_neg <> [] /\ 0 < x /\ t2 = t2p /\ w = x) \/ (t2_neg <> [] /\ x <= 0 /\ t2 = t2_neg /\ w = Qabs x)) /\
    bind (blend_points nothing t1 t2 w) (respan nothing) = Ok t).
  { destruct t2_neg as [|p1 l1]; [exists t2p, (Qabs x); split; [auto|exact H]|]. destruct (Qlt_bool 0 x) eqn:X.
    - apply Qlt_bool_iff in X. exists t2p, x. split; [right; left; repeat split; auto; discriminate|exact H].
    - apply Qlt_bool_false in X. exists (p1 :: l1), (Qabs x). split; [right; right; repeat split; auto; discriminate|exact H]. }
  destruct CASE as (t2 & w & C & B). exists t2, w. split; [exact C|]. intros D1 D2 L1 L2. inv B l BP.
  destruct (blend_points_spec _ _ _ _ _ D1 D2 L1 L2 BP) as (lo & hi & LO & HI & vs & EV & F2).
  destruct (respan_spec _ _ _ B) as (c & a & b & (full & FE & FR & ->) & LA & GB & A0 & AB & B0 & ET & RT).
  assert (HV : forall q, has_voltage (known_part full) q <-> has_voltage full q).
  { intro q. unfold has_voltage. split; intros (v & V); exists v; [apply known_in in V; tauto|]. apply known_in. split; [exact V|discriminate]. }
  exists lo, hi, vs, l, full, a, b. split; [exact LO|]. split; [exact HI|]. split; [exact EV|]. split; [exact F2|]. split; [exact FE|]. split; [exact FR|].
  split; [split; [apply HV, LA|intros q Q; apply (proj2 LA), HV, Q]|]. split; [split; [apply HV, GB|intros q Q; apply (proj2 GB), HV, Q]|].
  split; [tauto|]. split; [exact ET|]. intros s v I. apply (inside_iff (fun p => In p (known_part full))); [intro p; apply known_in|apply RT, I].
Qed.
(** With weight 0 the blend is at every voltage at the SOC of the first material, with weight 1 at that of the
    second: the fit, whose default bounds fix the fraction at 1, uses the second material only. *)
Theorem C106_ends t1 t2 v s : (blended t1 t2 0 v s -> exists s1, follows t1 v s1 /\ s == s1) /\ (blended t1 t2 1 v s -> exists s2, follows t2 v s2 /\ s == s2).
Proof. split; intros (s1 & s2 & A & B & E); [exists s1|exists s2]; (split; [assumption|lra]). Qed.
(** The SOC of the blend lies between those of the materials. *)
Theorem C106_between t1 t2 x v s : 0 <= x <= 1 -> blended t1 t2 x v s -> exists s1 s2, follows t1 v s1 /\ follows t2 v s2 /\ ((s1 <= s <= s2) \/ (s2 <= s <= s1)).
Proof.
  intros [X0 X1] (s1 & s2 & A & B & E). exists s1, s2. split; [exact A|]. split; [exact B|]. destruct (Qlt_le_dec s1 s2) as [L|L]; [left|right]; nra.
Qed.
End C106.

(** * Cases *)
Definition ramp (v0 v1 : Q) : table := map (fun s => (s, Qred (v0 + (v1 - v0) * (s / 100)))) (map Qred (linspace 0 100 points)).
Definition cells : half_cells := {| t_pe := ramp (35 # 10) (44 # 10); t_ne := ramp (8 # 10) (1 # 10); t_ne2_pos := []; t_ne2_neg := [] |}.
Definition a_guess : guess := {| g_lli := 0; g_pe := 5; g_ne := 4; g_x2 := 1 |}.
Definition irow (c s : Z) (v q d : Q) : irec := {| i_cycle := c; i_type := "rpt_0.2C"; i_step := s; i_voltage := Some v; i_qc := Some q; i_qd := Some d |}.
Definition run : list irec :=
  [irow 37 0 (30 # 10) 1 0; irow 37 0 (39 # 10) 3 0; irow 37 0 (42 # 10) 4 0; irow 37 1 (38 # 10) 5 1; irow 142 0 (31 # 10) 1 0; irow 142 0 (40 # 10) 2 0].
Lemma ramp_single v0 v1 : single_valued (fun p => In p (as_curve (ramp v0 v1))).
Proof.
  intros p q P P' E. apply as_curve_in in P as (s & P & ->), P' as (s' & P' & ->). apply in_map_iff in P as (u & <- & _), P' as (u' & <- & _). cbn [fst snd] in *.
  f_equal. apply Qred_complete. rewrite E. reflexivity.
Qed.
Lemma ramp_soc v0 v1 s : In s (ramp v0 v1) -> 0 <= fst s <= 100.
Proof.
  intro I. apply in_map_iff in I as (u & <- & I). apply in_map_iff in I as (w & <- & I). cbn [fst]. rewrite Qred_correct. apply (linspace_range 0 100 points w points_2); [lra|exact I].
Qed.
Lemma ramp_ends v0 v1 : In (0, Qred (v0 + (v1 - v0) * (0 / 100))) (ramp v0 v1) /\ In (100, Qred (v0 + (v1 - v0) * (100 / 100))) (ramp v0 v1).
Proof.
  split; unfold ramp; apply in_map_iff; eexists; (split; [reflexivity|]); apply in_map_iff.
  - exists (0 + inject_Z (Z.of_nat 0) * ((100 - 0) / inject_Z (Z.of_nat (points - 1)))). split; [reflexivity|]. apply nth_error_In with 0%nat. apply linspace_nth; [apply points_2|unfold points; lia].
  - exists (0 + inject_Z (Z.of_nat 1000) * ((100 - 0) / inject_Z (Z.of_nat (points - 1)))). split; [reflexivity|]. apply nth_error_In with 1000%nat. apply linspace_nth; [apply points_2|unfold points; lia].
Qed.
Lemma ramp_length v0 v1 : length (ramp v0 v1) = 1001%nat.
Proof. unfold ramp. rewrite !map_length. apply linspace_length. Qed.
Lemma ramp_some v0 v1 : ramp v0 v1 <> [].
Proof. intro E. pose proof (ramp_length v0 v1) as L. rewrite E in L. discriminate. Qed.
Lemma ramp_full v0 v1 : full_table (ramp v0 v1).
Proof.
  destruct (ramp_ends v0 v1) as [A B]. split.
  - split; [eexists; split; [exact A|reflexivity]|]. intros y (p & P & ->). apply (ramp_soc _ _ _ P).
  - split; [eexists; split; [exact B|reflexivity]|]. intros y (p & P & ->). apply (ramp_soc _ _ _ P).
Qed.
Example C100_case : exists l, candidate_profile ValueError "rpt_0.2C" 0 run 37 = Ok l /\ nth_error l 0 = Some (0 # 1000, Some (27 # 10)) /\
  (exists q v, nth_error l 500 = Some (q, Some v) /\ q == 3 # 2 /\ v == 3225 # 1000) /\ charged run "rpt_0.2C" 37 (3, Some (39 # 10)).
Proof.
  eexists. split; [vm_compute; reflexivity|]. split; [reflexivity|]. split; [do 2 eexists; split; [reflexivity|]; split; vm_compute; reflexivity|].
  exists (irow 37 0 (39 # 10) 3 0), (39 # 10). cbn. repeat split; auto; lra.
Qed.
(** Finding: before the first measured capacity the voltage is 2.7 V, so the profile can jump: here from 2.7 V to
    more than 3 V within a step, although no measured voltage is below 3 V. *)
Theorem C100_jump_refuted : exists data l, candidate_profile ValueError "rpt_0.2C" 0 data 37 = Ok l /\
  (forall p, charged data "rpt_0.2C" 37 p -> exists v, snd p = Some v /\ 3 <= v) /\
  exists i q q' v', nth_error l i = Some (q, Some (27 # 10)) /\ nth_error l (S i) = Some (q', Some v') /\ 3 <= v'.
Proof.
  exists run. eexists. split; [vm_compute; reflexivity|]. split.
  - intros p (r & v & I & _ & C & S0 & _ & _ & V & L & E). exists v. split; [exact E|]. cbn in I. destruct I as [<-|[<-|[<-|[<-|[<-|[<-|[]]]]]]]; cbn in *; try discriminate; injection V as <-; lra.
  - exists 333%nat. do 3 eexists. split; [vm_compute; reflexivity|]. split; [vm_compute; reflexivity|]. vm_compute. discriminate.
Qed.
Example C101_case : exists pe ne, impose ValueError cells a_guess = Ok (pe, ne) /\ 0 < g_pe a_guess /\ 0 < g_ne a_guess.
Proof.
  destruct (proj2 (C101_defined ValueError cells a_guess (ramp (8 # 10) (1 # 10)) eq_refl (ramp_some _ _) (ramp_some _ _))) as (pe & ne & I); [split; apply ramp_length|].
  exists pe, ne. split; [exact I|]. split; cbn; lra.
Qed.
(** the first place of the electrodes of the case *)
Lemma first_place pe ne : impose ValueError cells a_guess = Ok (pe, ne) -> exists q, electrodes_at pe ne 0 q (7 # 2) (4 # 5) /\ q == 0.
Proof.
  intro I. destruct (C101_electrodes ValueError cells a_guess pe ne) as (neg & lo & hi & B & AX & (LEN & EV) & LO & HI & RP & RN); [cbn; lra|cbn; lra|exact I|].
  injection B as <-. assert (L0 : lo == 0).
  { destruct LO as [LO LO']. assert (lo <= 0) by (apply LO'; left; exists (0, 7 # 2); split; [exact (proj1 (ramp_ends (35 # 10) (44 # 10)))|reflexivity]).
    assert (0 <= lo). { destruct LO as [(s & SI & E)|(s & SI & E)]; apply ramp_soc in SI; cbn [g_pe g_ne g_lli a_guess] in E; rewrite E; [|rewrite Qplus_0_r]; (apply Qmult_le_0_compat; [apply Qle_shift_div_l; lra|lra]). }
    lra. }
  destruct pe as [|[q v] pe]; [discriminate LEN|]. destruct ne as [|[q' v'] ne]; [discriminate AX|]. assert (q' = q) by (cbn in AX; congruence). subst q'.
  assert (Q0 : q == 0). { specialize (EV 0%nat q eq_refl). change (inject_Z (Z.of_nat 0)) with 0 in EV. lra. }
  exists q. split; [|exact Q0]. specialize (RP q v (or_introl eq_refl)). specialize (RN q v' (or_introl eq_refl)).
  assert (V : v = Some (7 # 2)). { apply (reads_at _ _ _ (0, Some (7 # 2)) (ramp_single _ _)) in RP; [exact RP| |cbn [fst g_pe a_guess]; rewrite Q0; reflexivity]. apply as_curve_in. exists (0, 7 # 2). split; [exact (proj1 (ramp_ends (35 # 10) (44 # 10)))|reflexivity]. }
  assert (V' : v' = Some (4 # 5)). { apply (reads_at _ _ _ (0, Some (4 # 5)) (ramp_single _ _)) in RN; [exact RN| |cbn [fst g_ne g_lli a_guess]; rewrite Q0; reflexivity]. apply as_curve_in. exists (0, 4 # 5). split; [exact (proj1 (ramp_ends (8 # 10) (1 # 10)))|reflexivity]. }
  subst v v'. split; [reflexivity|]. exists q. reflexivity.
Qed.
Lemma profile_known c : In c [37%Z; 142%Z] -> exists l q1 q2, candidate_profile ValueError "rpt_0.2C" 0 run c = Ok l /\ has_voltage l q1 /\ has_voltage l q2 /\ q1 < q2 /\ q1 == 0 /\ least (has_voltage l) q1.
Proof.
  intros [<-|[<-|[]]].
  all: match goal with |- exists l _ _, ?p = Ok l /\ _ => destruct p as [l|] eqn:E; [|vm_compute in E; discriminate] end.
  all: destruct (C100_profile _ _ _ _ _ E) as (top & (TOP & _) & (LEN & EV) & RD).
  all: assert (T0 : 0 < top) by (destruct TOP as (w & r & v & _ & _ & _ & _ & _ & P & _); exact P).
  all: assert (KNOWN : forall q v, In (q, v) l -> has_voltage l q) by
   (intros q v I; destruct (RD q v I) as [A B]; destruct (existsb (fun p : Q * num => Qle_bool (fst p) q) (charge_points "rpt_0.2C" 0 run 37)) eqn:X; destruct (existsb (fun p : Q * num => Qle_bool (fst p) q) (charge_points "rpt_0.2C" 0 run 142)) eqn:X';
    try (destruct A as (_ & y & ->); [rewrite existsb_exists in *; match goal with H : exists p, In p (charge_points _ _ _ ?k) /\ _ |- exists p, charged _ _ ?k p /\ _ => destruct H as (p & P & L); exists p; split; [apply charge_points_in; exact P|apply Qle_bool_iff; exact L] end|exists y; exact I]);
    try (rewrite B in I; [exists (27 # 10); exact I|]; intros p P; apply charge_points_in in P; apply Qnot_le_lt; intro L; apply Qle_bool_iff in L;
         match goal with H : existsb ?g ?lst = false |- _ => assert (existsb g lst = true) by (apply existsb_exists; exists p; split; [exact P|exact L]); congruence end)).
  all: destruct (nth_error l 0) as [[q1 v1]|] eqn:N0; [|apply nth_error_None in N0; rewrite map_length in LEN; lia].
  all: destruct (nth_error l 1000) as [[q2 v2]|] eqn:N1; [|apply nth_error_None in N1; rewrite map_length in LEN; lia].
  all: assert (E0 := EV 0%nat q1); rewrite nth_error_map, N0 in E0; specialize (E0 eq_refl); assert (E1 := EV 1000%nat q2); rewrite nth_error_map, N1 in E1; specialize (E1 eq_refl).
  all: change (inject_Z (Z.of_nat (1001 - 1))) with 1000 in *; change (inject_Z (Z.of_nat 0)) with 0 in E0; change (inject_Z (Z.of_nat 1000)) with 1000 in E1.
  all: assert (Q1 : q1 == 0) by (rewrite E0; ring); assert (Q2 : q2 == top) by (rewrite E1; field).
  all: exists l, q1, q2; split; [reflexivity|]; split; [apply (KNOWN q1 v1), nth_error_In with 0%nat, N0|]; split; [apply (KNOWN q2 v2), nth_error_In with 1000%nat, N1|]; split; [lra|]; split; [exact Q1|].
  all: split; [apply (KNOWN q1 v1), nth_error_In with 0%nat, N0|]; intros y (w & Y); apply In_nth_error in Y as (i & Y); assert (EI := EV i y (map_nth_error fst i l Y)); rewrite EI, Q1;
    assert (0 <= inject_Z (Z.of_nat i)) by (change 0 with (inject_Z 0); rewrite <- Zle_Qle; lia); assert (0 <= (top - 0) / 1000) by (apply Qle_shift_div_l; lra);
    assert (0 <= inject_Z (Z.of_nat i) * ((top - 0) / 1000)) by (apply Qmult_le_0_compat; assumption); lra.
Qed.
Example C102_case : exists real pe ne r e q1 q2, candidate_profile ValueError "rpt_0.2C" 0 run 37 = Ok real /\ matching ValueError cells real a_guess = Ok (pe, ne, r, e) /\
  has_voltage real q1 /\ has_voltage real q2 /\ q1 < q2 /\ exists info, electrode_info pe ne = Ok info.
Proof.
  destruct C101_case as (pe0 & ne0 & I & _). destruct (first_place _ _ I) as (q & EL & Q0). destruct (profile_known 37) as (real & q1 & q2 & RP & H1 & H2 & LT & _); [left; reflexivity|].
  destruct (proj2 (C102_defined ValueError cells real a_guess pe0 ne0 I)) as (pe & ne & r & e & M).
  - exists (q, Some ((7 # 2) - (4 # 5))), 0%nat, (7 # 2), (4 # 5). split; [exact EL|]. split; [split; vm_compute; discriminate|reflexivity].
  - exists q1. exact H1.
  - exists real, pe, ne, r, e, q1, q2. split; [exact RP|]. split; [exact M|]. split; [exact H1|]. split; [exact H2|]. split; [exact LT|].
    destruct (C102_zero _ _ _ _ _ _ _ _ M) as (_ & _ & z & _ & _ & _ & v & (i & a & b & E & _) & _). apply C103_defined. eauto.
Qed.
(** the electrodes of the case are straight lines, so the voltage of the cell rises with its capacity *)
Lemma ramp_reads v0 v1 x v : reads (fun p => In p (as_curve (ramp v0 v1))) x (Some v) -> v == v0 + (v1 - v0) * (x / 100).
Proof.
  assert (ON : forall p, In p (as_curve (ramp v0 v1)) -> exists w, snd p = Some w /\ w == v0 + (v1 - v0) * (fst p / 100)).
  { intros p P. apply as_curve_in in P as (s & P & ->). apply in_map_iff in P as (u & <- & _). cbn [fst snd]. eexists. split; [reflexivity|]. apply Qred_correct. }
  intros [[(p & P & E1 & E2)|(p & q & P & P' & L1 & L2 & _ & ST)]|[_ N]]; [| |discriminate].
  - destruct (ON p P) as (w & W & EW). assert (v = w) by congruence. subst w. rewrite EW, E1. reflexivity.
  - destruct (ON p P) as (w & W & EW). destruct (ON q P') as (w' & W' & EW'). unfold straight in ST. rewrite W, W' in ST. destruct ST as (y & Y & EY). assert (v = y) by congruence. subst y.
    rewrite EY, EW, EW'. field. lra.
Qed.
Lemma case_rises real pe ne r e : matching ValueError cells real a_guess = Ok (pe, ne, r, e) ->
  forall i j q a b q' a' b', electrodes_at pe ne i q a b -> electrodes_at pe ne j q' a' b' -> a - b <= a' - b' -> q <= q'.
Proof.
  intro M. destruct (matching_inv _ _ _ _ _ _ _ _ M) as (cell & a0 & b0 & f & g & Z & _). destruct (zeroed_inv _ _ _ _ _ _ Z) as (pe0 & ne0 & z & I & _ & -> & -> & _).
  destruct (C101_electrodes ValueError cells a_guess pe0 ne0) as (neg & lo & hi & B & AX & _ & _ & _ & RP & RN); [cbn; lra|cbn; lra|exact I|]. injection B as <-.
  assert (LINE : forall i q a b, electrodes_at pe0 ne0 i q a b -> a - b == (27 # 10) + (9 # 10) * (q / 5) + (7 # 10) * (q / 4)).
  { intros i q a b (E1 & q' & E2). assert (q' = q). { assert (E3 := map_nth_error fst i pe0 E1). assert (E4 := map_nth_error fst i ne0 E2). cbn [fst] in *. congruence. } subst q'.
    pose proof (RP q (Some a) (nth_error_In _ _ E1)) as R1. pose proof (RN q (Some b) (nth_error_In _ _ E2)) as R2. cbn [t_pe cells] in R1. apply ramp_reads in R1. apply ramp_reads in R2.
    cbn [g_pe g_ne g_lli a_guess] in *. rewrite R1, R2. field. }
  intros i j q a b q' a' b' E E' L. apply shift_electrodes in E as (u & E & ->). apply shift_electrodes in E' as (u' & E' & ->). rewrite (LINE _ _ _ _ E), (LINE _ _ _ _ E') in L.
  assert (K : forall y, (27 # 10) + (9 # 10) * (y / 5) + (7 # 10) * (y / 4) == (27 # 10) + (355 # 1000) * y) by (intro y; field). rewrite !K in L. lra.
Qed.
Example C103_case : exists real pe ne r e info, matching ValueError cells real a_guess = Ok (pe, ne, r, e) /\ electrode_info pe ne = Ok info /\ map fst pe = map fst ne /\
  (forall i j q a b q' a' b', electrodes_at pe ne i q a b -> electrodes_at pe ne j q' a' b' -> a - b <= a' - b' -> q <= q') /\
  exists cell lo hi, zeroed ValueError cells a_guess = Ok (pe, ne, cell) /\ full_table (t_pe cells) /\ full_table (t_ne cells) /\ evenly lo hi 1001 (map fst pe) /\ (hi - lo) / 1000 <= g_pe a_guess.
Proof.
  destruct C102_case as (real & pe & ne & r & e & q1 & q2 & _ & M & _ & _ & _ & info & IN). exists real, pe, ne, r, e, info. split; [exact M|]. split; [exact IN|].
  destruct (matching_inv _ _ _ _ _ _ _ _ M) as (cell & a0 & b0 & f & g & Z & _). destruct (zeroed_inv _ _ _ _ _ _ Z) as (pe0 & ne0 & z & I & _ & EP & EN & _).
  destruct (C101_electrodes ValueError cells a_guess pe0 ne0) as (neg & lo & hi & B & AX & (LEN & EV) & LO & HI & _); [cbn; lra|cbn; lra|exact I|]. injection B as <-.
  assert (SH : forall l, map fst (shift z l) = map (fun q => q - z) (map fst l)) by (intro l; unfold shift; rewrite !map_map; reflexivity).
  split; [subst pe ne; rewrite !SH, AX; reflexivity|]. split; [apply (case_rises real pe ne r e M)|].
  exists cell, (lo - z), (hi - z). split; [exact Z|]. split; [apply ramp_full|]. split; [apply ramp_full|]. split.
  - subst pe. rewrite SH. split; [rewrite map_length; exact LEN|]. intros i y Y. rewrite nth_error_map in Y. destruct (nth_error (map fst pe0) i) as [u|] eqn:U; [|discriminate]. injection Y as <-.
    rewrite (EV _ _ U). change (inject_Z (Z.of_nat (1001 - 1))) with 1000. field.
  - assert (0 <= lo /\ hi <= 5).
    { split; [destruct LO as [[(s & SI & E)|(s & SI & E)] _]|destruct HI as [[(s & SI & E)|(s & SI & E)] _]]; apply ramp_soc in SI; cbn [g_pe g_ne g_lli a_guess] in E; rewrite E; destruct SI as [S0 S1].
      - apply Qmult_le_0_compat; [apply Qle_shift_div_l; lra|lra].
      - rewrite Qplus_0_r. apply Qmult_le_0_compat; [apply Qle_shift_div_l; lra|lra].
      - assert (fst s / 100 <= 1) by (apply Qle_shift_div_r; lra). lra.
      - assert (fst s / 100 <= 1) by (apply Qle_shift_div_r; lra). lra. }
    cbn [g_pe a_guess]. apply Qle_shift_div_r; lra.
Qed.
(** Finding: a voltage the cell never reaches is not reported as missing; the values are those of the closest
    one. *)
Theorem C103_unreached_refuted : exists pe ne info, electrode_info pe ne = Ok info /\
  (forall i q a b, electrodes_at pe ne i q a b -> a - b <= 3) /\ sget info "pe_voltage_FC4p2V" = Some (Some (36 # 10)) /\ sget info "Q_fc" = Some (Some 1).
Proof.
  exists [(0, Some (35 # 10)); (1, Some (36 # 10))], [(0, Some (8 # 10)); (1, Some (6 # 10))]. eexists. split; [vm_compute; reflexivity|]. split; [|split; vm_compute; reflexivity].
  intros i q a b (E1 & q' & E2). destruct i as [|[|[|i]]]; cbn in *; try discriminate; injection E1 as <- <-; injection E2 as <- <-; lra.
Qed.
Definition city (xa xb : list (Q * Q)) (p q : Q * Q) : Q := Qabs (fst p - fst q) + Qabs (snd p - snd q).
Definition toy_slope (y x : list num) : list num := y.
Lemma case_voltages c : In c [37%Z; 142%Z] -> exists real pe ne r e, candidate_profile ValueError "rpt_0.2C" 0 run c = Ok real /\ matching ValueError cells real a_guess = Ok (pe, ne, r, e) /\
  (exists q1 q2, has_voltage real q1 /\ has_voltage real q2 /\ q1 < q2) /\ (exists q, has_voltage r q) /\ (exists q, has_voltage e q) /\ exists info, electrode_info pe ne = Ok info.
Proof.
  intro C. destruct C101_case as (pe0 & ne0 & I & _). destruct (first_place _ _ I) as (q & EL & Q0). destruct (profile_known c C) as (real & q1 & q2 & RP & H1 & H2 & LT & Z1 & LEAST).
  destruct (proj2 (C102_defined ValueError cells real a_guess pe0 ne0 I)) as (pe & ne & r & e & M).
  - exists (q, Some ((7 # 2) - (4 # 5))), 0%nat, (7 # 2), (4 # 5). split; [exact EL|]. split; [split; vm_compute; discriminate|reflexivity].
  - exists q1. exact H1.
  - exists real, pe, ne, r, e. split; [exact RP|]. split; [exact M|]. split; [eauto|].
    destruct (C102_sampled _ _ _ _ _ _ _ _ M) as (lo & hi & LO & HI & AX & (LEN & EV) & RK & ER). pose proof (least_unique _ _ _ LO LEAST) as EL0.
    destruct (C102_zero _ _ _ _ _ _ _ _ M) as (_ & _ & z & _ & _ & _ & v & CP & _).
    destruct r as [|[u w] r]; [discriminate LEN|]. destruct e as [|[u' w'] e]; [discriminate AX|]. assert (u' = u) by (cbn in AX; congruence). subst u'.
    assert (U : u == 0). { specialize (EV 0%nat u eq_refl). change (inject_Z (Z.of_nat 0)) with 0 in EV. lra. }
    split; [|split].
    + destruct (RK u w (or_introl eq_refl)) as [_ N]. destruct w as [w|]; [|congruence]. exists u, w. left. reflexivity.
    + pose proof (ER u w' (or_introl eq_refl)) as R. assert (N : w' <> None).
      { destruct R as [R|[[O|O] _]].
        - apply (inside_known (cell_point pe ne) u w'); [|exact R]. intros p (i & a & b & _ & _ & E) K. rewrite E in K. discriminate.
        - specialize (O _ CP). cbn [fst] in O. lra.
        - specialize (O _ CP). cbn [fst] in O. lra. }
      destruct w' as [w'|]; [|congruence]. exists u, w'. left. reflexivity.
    + destruct CP as (i & a & b & E & _). apply C103_defined. eauto.
Qed.
Example C104_case : exists real pe ne r e, v_over_q ValueError cells real a_guess = Ok (pe, ne, r, e) /\ (exists q, has_voltage r q) /\ (exists q, has_voltage e q) /\
  (forall xa xb p q, 0 <= city xa xb p q) /\ (forall xa xb p, city xa xb p p == 0).
Proof.
  destruct (case_voltages 37) as (real & pe & ne & r & e & _ & M & (q1 & q2 & H1 & H2 & LT) & (u & HR) & (u' & HE) & _); [left; reflexivity|].
  destruct (C104_resampled _ _ _ _ _ _ _ _ q1 q2 M H1 H2 LT) as (r' & e' & V & A1 & A2). exists real, pe, ne, r', e'. split; [exact V|].
  assert (T : forall l l' y, alike l l' -> has_voltage l y -> exists y', has_voltage l' y').
  { intros l l' y A. induction A as [|[q v] [q' v'] l l' [E1 E2] A IH]; intros (w & W); [destruct W|]. cbn [fst snd] in *. destruct W as [W|W].
    - exists q', w. left. f_equal. rewrite E2. congruence.
    - destruct IH as (y' & w' & W'); [exists w; exact W|]. exists y', w'. right. exact W'. }
  split; [apply (T r r' u A1 HR)|]. split; [apply (T e e' u' A2 HE)|]. split.
  - intros. unfold city. pose proof (Qabs_nonneg (fst p - fst q)). pose proof (Qabs_nonneg (snd p - snd q)). lra.
  - intros. unfold city. assert (E : forall y : Q, Qabs (y - y) == 0) by (intro y; assert (K : y - y == 0) by ring; rewrite K; reflexivity). rewrite !E. reflexivity.
Qed.
Example C104_bad_case : matching ValueError {| t_pe := ramp 1 2; t_ne := ramp 0 0; t_ne2_pos := []; t_ne2_neg := [] |} [] {| g_lli := 0; g_pe := 1; g_ne := 1; g_x2 := 1 |} = Err ValueError /\
  length (t_pe {| t_pe := [(0, 3); (100, 4)]; t_ne := [(0, 1); (100, 0)]; t_ne2_pos := []; t_ne2_neg := [] |}) <> 1001%nat.
Proof.
  split; [|discriminate]. set (h := {| t_pe := ramp 1 2; t_ne := ramp 0 0; t_ne2_pos := []; t_ne2_neg := [] |}). set (x := {| g_lli := 0; g_pe := 1; g_ne := 1; g_x2 := 1 |}).
  destruct (proj2 (C101_defined ValueError h x (ramp 0 0) eq_refl (ramp_some _ _) (ramp_some _ _))) as (pe & ne & I); [split; apply ramp_length|].
  apply (proj1 (C102_defined ValueError h [] x pe ne I)). destruct (C101_electrodes ValueError h x pe ne) as (neg & lo & hi & B & AX & EV & LO & HI & RP & RN); [cbn; lra|cbn; lra|exact I|]. injection B as <-.
  intros [q v] (i & a & b & (E1 & q' & E2) & IL & _). cbn [fst] in *. assert (q' = q). { assert (E3 := map_nth_error fst i pe E1). assert (E4 := map_nth_error fst i ne E2). cbn [fst] in *. congruence. } subst q'.
  pose proof (RP q (Some a) (nth_error_In _ _ E1)) as R1. pose proof (RN q (Some b) (nth_error_In _ _ E2)) as R2. cbn [t_pe h] in R1. apply ramp_reads in R1. apply ramp_reads in R2. cbn [g_pe g_ne g_lli x] in *.
  assert (Q1 : q <= 1).
  { assert (PL : placed h (ramp 0 0) x hi) by apply HI. assert (hi <= 1).
    { destruct PL as [(s & SI & E)|(s & SI & E)]; apply ramp_soc in SI; cbn [g_pe g_ne g_lli x] in E; rewrite E; assert (fst s / 100 <= 1) by (apply Qle_shift_div_r; lra); lra. }
    assert (0 <= lo). { destruct LO as [[(s & SI & E)|(s & SI & E)] _]; apply ramp_soc in SI; cbn [g_pe g_ne g_lli x] in E; rewrite E; assert (0 <= fst s / 100) by (apply Qle_shift_div_l; lra); lra. }
    assert (L : lo <= hi) by (apply (proj2 LO), PL). destruct EV as [LEN EV]. pose proof (EV i q (map_nth_error fst i pe E1)) as EQ. change (inject_Z (Z.of_nat (1001 - 1))) with 1000 in EQ.
    assert (i <= 1000)%nat. { assert (i < length (map fst pe))%nat by (apply nth_error_Some; rewrite (map_nth_error fst i pe E1); discriminate). lia. }
    assert (IQ : inject_Z (Z.of_nat i) <= 1000) by (change 1000 with (inject_Z 1000); rewrite <- Zle_Qle; lia).
    assert (D : 0 <= (hi - lo) / 1000) by (apply Qle_shift_div_l; lra). assert (inject_Z (Z.of_nat i) * ((hi - lo) / 1000) <= 1000 * ((hi - lo) / 1000)) by (apply Qmult_le_compat_r; assumption).
    assert (1000 * ((hi - lo) / 1000) == hi - lo) by field. lra. }
  assert (E : 100 * q / 1 / 100 == q) by field. destruct IL as [IL _]. rewrite R1, R2, E in IL. lra.
Qed.
Definition toy_optimise (f : guess -> result num) (b : bounds) : result (guess * num) := let! e := f a_guess in Ok (a_guess, e).
Definition a_fit : fit := {| f_type := "rpt_0.2C"; f_step := 0; f_error := "V-Q"; f_cells := cells |}.
Definition a_diagnostic (c : Z) (q : Q) : drow := {| d_cycle := c; d_type := "rpt_0.2C"; d_dis := Some q; d_dis_en := None; d_chg := None; d_chg_en := None; d_epoch := None |}.
Lemma dqdv_total l q : has_voltage l q -> exists r, dqdv ValueError toy_slope l = Ok r.
Proof.
  intros (v & V). unfold dqdv, toy_slope. match goal with |- context [interp1d _ _ _ ?p] => destruct (interp1d_total ValueError (Some 0) (Some 0) p) as (f & ->) end; [|cbn [bind]; eauto].
  intro E. assert (IN : In ((q, Some v), Some q) (combine l (abscissas l))).
  { clear E. unfold abscissas. induction l as [|p l IH]; [destruct V|]. cbn [map combine]. destruct V as [->|V]; [left; reflexivity|right; apply IH, V]. }
  match type of E with ?p = [] => assert (K : In (v, Some q) p) by (apply in_flat_map; eexists; split; [exact IN|left; reflexivity]) end. rewrite E in K. destruct K.
Qed.
Lemma case_row c : In c [37%Z; 142%Z] -> exists row, wrapper ValueError toy_slope city toy_optimise a_fit run c = Ok row.
Proof.
  intro C. destruct (case_voltages c C) as (real & pe & ne & r & e & RP & M & (q1 & q2 & H1 & H2 & LT) & (u & HR) & (u' & HE) & info & IN).
  unfold wrapper. cbn [f_type f_step f_error f_cells a_fit]. rewrite RP. cbn [bind]. unfold toy_optimise. fold cells.
  assert (ERR : exists er, error_of ValueError toy_slope city "V-Q" cells real a_guess = Ok er).
  { unfold error_of. cbn [String.eqb Ascii.eqb Bool.eqb]. unfold error_vq. destruct (C104_resampled _ _ _ _ _ _ _ _ q1 q2 M H1 H2 LT) as (r' & e' & -> & _). cbn [bind].
    assert (G : forall d, (exists y, d = Ok y) \/ d = Err ValueError -> exists er, except_value d = Ok er) by (intros d [(y & ->)| ->]; [exists y|exists (Some 100)]; reflexivity). apply G.
    unfold mean_distance. destruct (complete r') as [|p l]; [destruct (complete e'); eauto|]. generalize (p :: l) at 1. intro xa.
    destruct (complete e') as [|p' l']; [right; reflexivity|]. left.
    assert (T : forall k, exists ds, mapM (closest_of city xa (p' :: l')) k = Ok ds) by (induction k as [|y k (ds & IH)]; [exists []; reflexivity|]; cbn [mapM closest_of bind]; rewrite IH; cbn [bind]; eauto).
    destruct (T (p :: l)) as (ds & ->). cbn [bind]. eauto. }
  destruct ERR as (er & ->). cbn [bind]. unfold dqdv_profiles. rewrite M. cbn [bind]. destruct (dqdv_total _ _ HR) as (d1 & ->). cbn [bind]. destruct (dqdv_total _ _ HE) as (d2 & ->). cbn [bind].
  rewrite IN. cbn [bind]. eauto.
Qed.
Lemma rows_two row c0 c1 r0 r1 : Z.eqb c0 c1 = false -> row c0 = Ok r0 -> row c1 = Ok r1 -> rows_of row [c0; c1] [] = Ok [(c0, r0); (c1, r1)].
Proof. intros N R0 R1. cbn [rows_of]. rewrite R0. cbn [bind]. rewrite R1. cbn [bind d_update]. rewrite N. reflexivity. Qed.
Lemma case_chosen : chosen_cycles threshold (f_type a_fit) [a_diagnostic 37 4; a_diagnostic 142 2] = [37; 142]%Z /\ chosen_cycles threshold (f_type a_fit) [a_diagnostic 37 4] = [37]%Z.
Proof. split; vm_compute; reflexivity. Qed.
Lemma two_shape r0 r1 c0 c1 : length r0 = 73%nat -> length r1 = 73%nat -> exists fs, first_two result_columns [(c0, r0); (c1, r1)] = Ok fs /\ length fs = 146%nat.
Proof. intros L0 L1. eexists. split; [reflexivity|]. rewrite combine_length, !app_length, !map_length, L0, L1. reflexivity. Qed.
Example C105_case : exists rows fs, cycles_features ValueError toy_slope city toy_optimise a_fit run [a_diagnostic 37 4; a_diagnostic 142 2] = Ok rows /\ map fst rows = [37; 142]%Z /\
  NoDup (chosen_cycles threshold (f_type a_fit) [a_diagnostic 37 4; a_diagnostic 142 2]) /\
  two_features ValueError toy_slope city toy_optimise a_fit run [a_diagnostic 37 4; a_diagnostic 142 2] = Ok fs /\ length fs = 146%nat /\
  two_features ValueError toy_slope city toy_optimise a_fit run [a_diagnostic 37 4] = Err IndexError /\
  intracell_valid threshold "rpt_0.2C" true [a_diagnostic 37 4] = true.
Proof.
  destruct (case_row 37) as (r0 & R0); [left; reflexivity|]. destruct (case_row 142) as (r1 & R1); [right; left; reflexivity|]. destruct case_chosen as [C2 C1].
  destruct (C105_row _ _ _ _ _ _ _ _ R0) as (? & ? & ? & ? & ? & ? & ? & ? & _ & _ & _ & _ & L0 & _). destruct (C105_row _ _ _ _ _ _ _ _ R1) as (? & ? & ? & ? & ? & ? & ? & ? & _ & _ & _ & _ & L1 & _).
  destruct (two_shape r0 r1 37 142 L0 L1) as (fs & FS & LF).
  pose proof (rows_two _ 37 142 r0 r1 eq_refl R0 R1) as RW.
  exists [(37%Z, r0); (142%Z, r1)], fs. unfold cycles_features, two_features at 1. rewrite C2. cbn [firstn]. rewrite RW. cbn [bind].
  split; [reflexivity|]. split; [reflexivity|]. split; [repeat constructor; cbn; intuition discriminate|]. split; [exact FS|]. split; [exact LF|]. split; [|vm_compute; reflexivity].
  apply (C105_single_refuted _ _ _ _ _ _ _ _ _ C1 R0).
Qed.
Lemma F2_left {A B} (R : A -> B -> Prop) l m : Forall2 R l m -> forall i x, nth_error l i = Some x -> exists y, nth_error m i = Some y /\ R x y.
Proof. induction 1 as [|x y l m E F IH]; intros [|i] z Z; cbn in *; try discriminate; [injection Z as <-; eauto|apply IH, Z]. Qed.
(** a material that starts at SOC 50 *)
Definition half_used : table := [(50, 1); (100, 0)].
Lemma half_distinct : distinct_voltages half_used.
Proof. repeat constructor. cbn. lra. Qed.
Lemma half_follows v s : follows half_used v s -> s == 100 - 50 * v.
Proof.
  intros (p & q & [<-|[<-|[]]] & [<-|[<-|[]]] & L & _ & _ & _ & E); cbn [fst snd] in *; try lra. rewrite E. field.
Qed.
Example C106_case : exists t, blend_electrodes ValueError half_used half_used [] (1 # 2) = Ok t /\ distinct_voltages half_used /\ (2 <= length half_used)%nat.
Proof.
  assert (T : exists l, blend_points ValueError half_used half_used (1 # 2) = Ok l) by (eexists; vm_compute; reflexivity). destruct T as (l & BP).
  destruct (blend_points_spec _ _ _ _ _ half_distinct half_distinct (le_n 2) (le_n 2) BP) as (lo & hi & LO & HI & vs & (LEN & EV) & F2).
  assert (L0 : lo == 0). { destruct LO as [(p & P & E) L]. cbn in P. assert (lo <= 0) by (apply L; exists (100, 0); cbn; auto). destruct P as [<-|[<-|[<-|[<-|[]]]]]; cbn in E; subst lo; lra. }
  assert (H1 : hi == 1). { destruct HI as [(p & P & E) L]. cbn in P. assert (1 <= hi) by (apply L; exists (50, 1); cbn; auto). destruct P as [<-|[<-|[<-|[<-|[]]]]]; cbn in E; subst hi; lra. }
  assert (PT : forall i y, nth_error vs i = Some y -> exists p, In p l /\ fst p == 100 - 50 * y).
  { intros i y Y. destruct (F2_left _ _ _ F2 i y Y) as (p & P & _ & s1 & s2 & A & B & E). exists p. split; [apply nth_error_In with i; exact P|]. apply half_follows in A, B. rewrite E, A, B. ring. }
  destruct (nth_error vs 0) as [y0|] eqn:N0; [|apply nth_error_None in N0; rewrite LEN in N0; unfold points in N0; lia]. destruct (nth_error vs 1000) as [y1|] eqn:N1; [|apply nth_error_None in N1; rewrite LEN in N1; unfold points in N1; lia].
  destruct (PT _ _ N0) as (p & P & EP). destruct (PT _ _ N1) as (q & QI & EQ). apply EV in N0, N1. change (inject_Z (Z.of_nat (points - 1))) with 1000 in *. change (inject_Z (Z.of_nat 0)) with 0 in N0. change (inject_Z (Z.of_nat 1000)) with 1000 in N1.
  assert (1000 * ((hi - lo) / 1000) == hi - lo) by field.
  destruct (respan_total ValueError l q p (0 + inject_Z (Z.of_nat 750) * ((100 - 0) / inject_Z (Z.of_nat (points - 1))))) as (t & RS); auto.
  - intros r R. destruct (In_nth_error _ _ R) as (i & I). destruct (F2_nth _ _ _ F2 i r I) as (y & _ & E & _). intro K. assert (X : Some y = None) by (transitivity (snd r); [symmetry; exact E|exact K]). discriminate X.
  - change (inject_Z (Z.of_nat (points - 1))) with 1000. change (inject_Z (Z.of_nat 750)) with 750. assert (750 * ((100 - 0) / 1000) == 75) by reflexivity. lra.
  - apply nth_error_In with 750%nat. apply linspace_nth; [apply points_2|unfold points; lia].
  - reflexivity.
  - exists t. split; [|split; [apply half_distinct|apply le_n]]. unfold blend_electrodes. change (Qabs (1 # 2)) with (1 # 2). cbn [half_used]. fold half_used. rewrite BP. exact RS.
Qed.
(** Finding: the comment in the code says that the blend fully spans 100 % SOC; only its upper end is moved, so a
    blend that starts at SOC 50 still does. *)
Theorem C106_span_refuted : exists t1 t2 x t s v, blend_electrodes ValueError t1 t2 [] x = Ok t /\ hd_error t = Some (s, v) /\ 50 <= s.
Proof.
  destruct C106_case as (t & B & D & L). exists half_used, half_used, (1 # 2), t.
  destruct (C106_blend ValueError half_used half_used [] (1 # 2) t) as (t2 & w & C & K); [discriminate|exact B|].
  assert (t2 = half_used) by (destruct C as [(_ & E & _)|[(N & _)|(N & _)]]; [exact E|congruence|congruence]). subst t2.
  destruct (K D D L L) as (lo & hi & vs & l & full & a & b & LO & HI & EV & F2 & FE & FR & LA & GB & B0 & ET & RT).
  assert (V1 : forall y, In y vs -> y <= 1).
  { intros y Y. apply In_nth_error in Y as (i & Y). assert (lo <= 0 /\ 0 <= lo /\ hi <= 1 /\ 1 <= hi) as (A1 & A2 & A3 & A4).
    { destruct LO as [(p & P & E) LO]. destruct HI as [(p' & P' & E') HI]. cbn in P, P'. assert (lo <= 0) by (apply LO; exists (100, 0); cbn; auto). assert (1 <= hi) by (apply HI; exists (50, 1); cbn; auto).
      destruct P as [<-|[<-|[<-|[<-|[]]]]]; cbn in E; destruct P' as [<-|[<-|[<-|[<-|[]]]]]; cbn in E'; subst; lra. }
    destruct EV as [LEN EV]. rewrite (EV _ _ Y). change (inject_Z (Z.of_nat (1001 - 1))) with 1000.
    assert (i <= 1000)%nat by (assert (i < length vs)%nat by (apply nth_error_Some; congruence); lia).
    assert (IQ : inject_Z (Z.of_nat i) <= 1000) by (change 1000 with (inject_Z 1000); rewrite <- Zle_Qle; lia).
    assert (DD : 0 <= (hi - lo) / 1000) by (apply Qle_shift_div_l; lra). assert (inject_Z (Z.of_nat i) * ((hi - lo) / 1000) <= 1000 * ((hi - lo) / 1000)) by (apply Qmult_le_compat_r; assumption).
    assert (1000 * ((hi - lo) / 1000) == hi - lo) by field. lra. }
  assert (PL : forall p, In p l -> 50 <= fst p).
  { intros p P. apply In_nth_error in P as (i & P). destruct (F2_nth _ _ _ F2 i p P) as (y & Y & _ & s1 & s2 & A & A' & E). apply half_follows in A, A'. assert (y <= 1) by (apply V1, nth_error_In with i, Y).
    assert (fst p == 100 - 50 * y) by (rewrite E, A, A'; ring). lra. }
  assert (A50 : 50 <= a).
  { destruct LA as [(v & V) _]. destruct (FR _ _ V) as [[(p & P & E & _)|(p & q & P & _ & L1 & _)]|[_ N]]; [| |discriminate].
    - specialize (PL p P). rewrite <- E. exact PL.
    - specialize (PL p P). apply Qle_trans with (fst p); [exact PL|apply Qlt_le_weak; exact L1]. }
  destruct t as [|[s v] t]; [destruct ET; discriminate|]. exists s, v. split; [exact B|]. split; [reflexivity|].
  destruct ET as [_ ET]. specialize (ET 0%nat s eq_refl). change (inject_Z (Z.of_nat 0)) with 0 in ET.
  assert (B1 : b <= 100). { destruct GB as [(u & U) _]. apply In_nth_error in U as (i & U). destruct FE as [LEN FE]. rewrite (FE i b (map_nth_error fst i full U)). change (inject_Z (Z.of_nat (1001 - 1))) with 1000.
    assert (i <= 1000)%nat. { assert (i < length (map fst full))%nat by (apply nth_error_Some; rewrite (map_nth_error fst i full U); discriminate). lia. }
    assert (IQ : inject_Z (Z.of_nat i) <= 1000) by (change 1000 with (inject_Z 1000); rewrite <- Zle_Qle; lia). assert (E : (100 - 0) / 1000 == 1 # 10) by reflexivity. rewrite E. lra. }
  assert (AB : (1 # 2) <= a / b) by (apply Qle_shift_div_l; lra). lra.
Qed.

Print Assumptions C100_profile.
Print Assumptions C100_exists.
Print Assumptions C100_nothing.
Print Assumptions C100_local.
Print Assumptions C100_discharge_refuted.
Print Assumptions C101_electrodes.
Print Assumptions C101_defined.
Print Assumptions C101_length_refuted.
Print Assumptions C101_fraction_unused.
Print Assumptions C102_zero.
Print Assumptions C102_sampled.
Print Assumptions C102_defined.
Print Assumptions C103_electrodes.
Print Assumptions C103_capacities.
Print Assumptions C103_defined.
Print Assumptions C103_full_cell.
Print Assumptions C103_recovered.
Print Assumptions C104_resampled.
Print Assumptions C104_voltage_error.
Print Assumptions C104_bad_guess.
Print Assumptions C104_table_length_refuted.
Print Assumptions C104_unknown_type_refuted.
Print Assumptions C104_synthetic_refuted.
Print Assumptions C104_synthetic.
Print Assumptions C105_row.
Print Assumptions C105_rows.
Print Assumptions C105_repeated.
Print Assumptions C105_local.
Print Assumptions C105_made.
Print Assumptions C105_accepted.
Print Assumptions C105_two.
Print Assumptions C105_single_refuted.
Print Assumptions C106_one_material.
Print Assumptions C106_blend.
Print Assumptions C106_ends.
Print Assumptions C106_between.
Print Assumptions C100_jump_refuted.
Print Assumptions C103_unreached_refuted.
Print Assumptions C106_span_refuted.

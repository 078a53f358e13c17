(** C88: the interpolated diagnostic cycles.  C89: the summary of the diagnostic cycles.  [cut_into_steps],
    [equally_spaced], [measured], [quotient], [position_of_step] and [not_after] are in Spec_DiagData;
    [interpolant] is in Spec_Interp; [of_cycle], [is_min] and [is_max] are in Spec_Summary. *)
From Coq Require Import Sorted Permutation Psatz Lqa.
From Verif Require Import Py Num Model_Raw Model_Interp Spec_Interp Proofs_Interp Model_Diagnostic Proofs_Diagnostic Model_Structure Proofs_Structure Model_Summary Spec_Summary Proofs_Summary Proofs_Life Model_DiagData Spec_DiagData Proofs_DiagData.

(** ** C88 *)
(** What the rows [block] for one step of the cycle [c] have to be, [axis] being voltage or test time. *)
Definition describes (raw : list row) (c s : Z) (type : string) (step : list row) (on_time : bool) (col : row -> num) (a b : Q) (n : nat) (block : list krow) : Prop :=
  let axis := if on_time then test_time else voltage in
  equally_spaced a b n block /\
  (forall r, In r block -> k_type r = type /\ k_step r = s /\ position_of_step (of_cycle raw c) s (k_steptype r) /\
     k_on_time r = on_time /\ (if on_time then k_time r else k_voltage r) = Some (k_x r) /\
     (forall Sy Sq Sd Sz, measured axis col step Sy -> measured axis charge_capacity step Sq -> measured axis discharge_capacity step Sd ->
        measured axis (if on_time then voltage else test_time) step Sz -> distinct_axis Sy ->
        interpolant Sy (k_x r) (k_y r) /\ interpolant Sq (k_x r) (k_q r) /\ interpolant Sd (k_x r) (k_d r) /\
        interpolant Sz (k_x r) (if on_time then k_voltage r else k_time r))) /\
  (forall i r r', nth_error block i = Some r -> nth_error block (S i) = Some r' ->
     quotient (k_d r) (k_d r') (k_voltage r) (k_voltage r') (k_ddq r') /\ quotient (k_q r) (k_q r') (k_voltage r) (k_voltage r') (k_cdq r')).

Lemma uniq_before seen pre s post : (forall x, In x pre -> x <> s) -> ~ In s seen ->
  uniq_aux seen (pre ++ s :: post) = uniq_aux seen pre ++ s :: uniq_aux (s :: rev (uniq_aux seen pre) ++ seen) post.
Proof.
  revert seen. induction pre as [|x pre IH]; intros seen N NS; cbn.
  - destruct (mem_z s seen) eqn:M; [apply mem_z_iff in M; contradiction|]. reflexivity.
  - destruct (mem_z x seen) eqn:M; [apply IH; [intros; apply N; right; assumption|exact NS]|]. cbn. f_equal.
    rewrite IH; [|intros; apply N; right; assumption|intros [E|K]; [exact (N x (or_introl eq_refl) E)|contradiction]].
    f_equal. f_equal. rewrite <- app_assoc. reflexivity.
Qed.
Lemma index_first l1 s l2 : ~ In s l1 -> forall k, index_z s (l1 ++ s :: l2) k = Ok (k + Z.of_nat (length l1))%Z.
Proof.
  induction l1 as [|x l1 IH]; intros N k; cbn [app index_z].
  - rewrite Z.eqb_refl. cbn. f_equal. lia.
  - destruct (Z.eqb_spec s x) as [E|_]; [exfalso; apply N; left; congruence|]. rewrite IH by (intro K; apply N; right; exact K). f_equal. cbn [length]. lia.
Qed.
Lemma steptype_spec rows s n : index_z s (uniq (map step_index rows)) 0 = Ok n -> In s (map step_index rows) -> position_of_step rows s n.
Proof.
  intros E I. apply in_map_iff in I as (r & S & I).
  assert (FST : exists pre r post, rows = pre ++ r :: post /\ step_index r = s /\ forall r', In r' pre -> step_index r' <> s).
  { clear E. induction rows as [|x rows IH]; [destruct I|]. destruct (Z.eq_dec (step_index x) s) as [Q|Q].
    - exists [], x, rows. split; [reflexivity|]. split; [exact Q|intros ? []].
    - destruct I as [<-|I]; [contradiction|]. destruct (IH I) as (pre & y & post & -> & Y & N). exists (x :: pre), y, post. split; [reflexivity|]. split; [exact Y|].
      intros z [<-|Z]; [exact Q|apply N, Z]. }
  destruct FST as (pre & y & post & -> & Y & N). exists pre, y, post. split; [reflexivity|]. split; [exact Y|]. split; [exact N|].
  rewrite map_app in E. cbn [map] in E. rewrite Y in E. unfold uniq in E.
  assert (N' : forall x, In x (map step_index pre) -> x <> s) by (intros x X; apply in_map_iff in X as (z & <- & Z); apply N, Z).
  rewrite uniq_before in E by (try exact N'; intros []).
  assert (LEN : length (uniq_aux [] (map step_index pre)) = length (nodup Z.eq_dec (map step_index pre))).
  { apply Permutation_length, NoDup_Permutation; [apply uniq_nodup|apply NoDup_nodup|]. intro x. rewrite nodup_In. apply uniq_in. }
  rewrite index_first in E by (intro K; apply (proj1 (uniq_in _ _)) in K; exact (N' s K eq_refl)).
  injection E as <-. rewrite LEN. reflexivity.
Qed.
Lemma quotient_ndiv y0 y1 v0 v1 : quotient y0 y1 v0 v1 (ndiv_finite (nsub y1 y0) (nsub v1 v0)).
Proof.
  unfold quotient. destruct y0 as [y0|], y1 as [y1|], v0 as [v0|], v1 as [v1|]; cbn; try reflexivity.
  intro N. destruct (Qeq_bool (v1 - v0) 0) eqn:B; [apply Qeq_bool_iff in B; exfalso; apply N; lra|]. eexists. split; reflexivity.
Qed.
Lemma measured_det axis col rows S1 : measured axis col rows S1 -> forall S2, measured axis col rows S2 -> S1 = S2.
Proof.
  induction 1 as [|r s rows S1 [A B] M IH]; intros S2 M2; inversion M2 as [|? t ? S2' [A' B'] M2']; subst; [reflexivity|].
  f_equal; [|apply IH, M2']. destruct s, t. cbn in *. congruence.
Qed.
Lemma distinct_fst S1 : forall S2, map fst S1 = map fst S2 -> distinct_axis S1 -> distinct_axis S2.
Proof.
  intros S2 E D. unfold distinct_axis in *. apply (proj2 (FOP_map fst (fun x y => ~ x == y) S2)). rewrite <- E.
  apply (proj1 (FOP_map fst (fun x y => ~ x == y) S1)). exact D.
Qed.
Lemma block_describes cfg tres vres dvm fb col raw c s k step block ax a b type :
  interpolate_group cfg tres vres dvm fb col raw {| u_cycle := c; u_step := s; u_counter := k; u_rows := step |} = Ok block ->
  diag_axis (mem_z c (g_hppc cfg)) dvm fb step = (ax, (Some a, Some b)) -> (ax = AxVoltage \/ ax = AxTime) -> a < b ->
  d_get Z.eqb (g_by_ix cfg) c = Some type -> In s (map step_index (of_cycle raw c)) ->
  (2 <= match ax with AxTime => tres | _ => vres end)%nat ->
  describes raw c s type step (match ax with AxTime => true | _ => false end) col a b (match ax with AxTime => tres | _ => vres end) block.
Proof.
  intros E AX OT L TY IN N2. apply group_inv in E as (ax' & a' & b' & type' & st & Sy & Sq & Sd & St & Sv & rows & AX' & TY' & ST & M1 & M2 & M3 & M4 & M5 & BL & XS & R).
  cbn [u_cycle u_step u_rows u_counter] in *. rewrite AX in AX'. injection AX' as <- <- <-. rewrite TY in TY'. injection TY' as <-.
  set (n := match ax with AxTime => tres | _ => vres end) in *.
  pose proof (any_grid Sy a b n L) as G. rewrite <- XS in G.
  assert (LEN : length rows = n) by (apply F2_len in G; rewrite map_length, linspace_length in G; exact G).
  assert (BR : block = rows) by (rewrite BL; destruct (Nat.ltb_spec (length rows) 2); [lia|reflexivity]). subst rows. clear BL.
  split; [|split].
  - split; [exact LEN|]. intros i r NR. assert (I : (i < n)%nat) by (rewrite <- LEN; apply nth_error_Some; rewrite NR; discriminate).
    destruct (F2_nth _ _ _ G i _ (linspace_nth a b n i N2 I)) as (x & E & EQ). rewrite (map_nth_error k_x i block NR) in E. injection E as <-.
    rewrite EQ. field. intro K. unfold inject_Z, Qeq in K. cbn in K. lia.
  - intros r I. apply In_nth_error in I as (i & I). destruct (R i r I) as (Y & Qq & D & AXV & _ & T & STP & _ & STT & OTM & _).
    split; [exact T|]. split; [exact STP|]. split; [rewrite STT; apply steptype_spec; [exact ST|exact IN]|]. split; [exact OTM|].
    split; [destruct OT as [-> | ->]; apply AXV|].
    intros Sy' Sq' Sd' Sz' M1' M2' M3' M4' DX.
    assert (AV : axis_val ax = if match ax with AxTime => true | _ => false end then test_time else voltage) by (destruct OT as [-> | ->]; reflexivity).
    rewrite <- AV in M1', M2', M3', M4'.
    rewrite <- (measured_det _ _ _ _ M1 _ M1') in *. rewrite <- (measured_det _ _ _ _ M2 _ M2'), <- (measured_det _ _ _ _ M3 _ M3').
    split; [eapply out_interpolant; [exact DX|eapply nth_error_In, Y]|].
    split; [eapply out_interpolant; [eapply distinct_fst; [|exact DX]; eapply measured_fst; eassumption|eapply nth_error_In, Qq]|].
    split; [eapply out_interpolant; [eapply distinct_fst; [|exact DX]; eapply measured_fst; eassumption|eapply nth_error_In, D]|].
    destruct OT as [-> | ->]; cbn iota in M4' |- *; destruct AXV as [_ AXV].
    + rewrite <- (measured_det _ _ _ _ M4 _ M4'). eapply out_interpolant; [eapply distinct_fst; [|exact DX]; eapply measured_fst; eassumption|eapply nth_error_In, AXV].
    + rewrite <- (measured_det _ _ _ _ M5 _ M4'). eapply out_interpolant; [eapply distinct_fst; [|exact DX]; eapply measured_fst; eassumption|eapply nth_error_In, AXV].
  - intros i r r' I I'. destruct (R i r I) as (_ & _ & _ & _ & _ & _ & _ & _ & _ & _ & SL). destruct (SL r' I') as [-> ->]. split; apply quotient_ndiv.
Qed.
Lemma is_min_col l m : is_min l m -> exists m', col_min l = Some m' /\ m' == m.
Proof.
  intros [I M]. pose proof (col_min_reports l) as R. destruct (col_min l) as [m'|]; cbn in R; [|destruct (R m I)].
  exists m'. split; [reflexivity|]. destruct R as [I' M']. apply Qle_antisym; auto.
Qed.
Lemma is_max_col l m : is_max l m -> exists m', col_max l = Some m' /\ m' == m.
Proof.
  intros [I M]. pose proof (col_max_reports l) as R. destruct (col_max l) as [m'|]; cbn in R; [|destruct (R m I)].
  exists m'. split; [reflexivity|]. destruct R as [I' M']. apply Qle_antisym; auto.
Qed.
Lemma describes_eq raw c s type step ot col a b a' b' n block : a' == a -> b' == b -> describes raw c s type step ot col a' b' n block -> describes raw c s type step ot col a b n block.
Proof. intros A B ((L & X) & R). split; [split; [exact L|]|exact R]. intros i r I. rewrite (X i r I), A, B. reflexivity. Qed.
Lemma step_in raw c parts i step s : cut_into_steps (of_cycle raw c) parts -> nth_error parts i = Some step -> (forall r, In r step -> step_index r = s) -> In s (map step_index (of_cycle raw c)).
Proof.
  intros (E & A & _) N S. destruct (A step (nth_error_In _ _ N)) as [NE _]. destruct step as [|r step]; [congruence|].
  apply in_map_iff. exists r. split; [apply S; left; reflexivity|]. rewrite E. apply in_concat. exists (r :: step). split; [eapply nth_error_In, N|left; reflexivity].
Qed.
Lemma type_of_listed d kw cfg type ixs c : make_config d kw = Ok cfg -> In (type, ixs) d -> In c ixs -> d_get Z.eqb (g_by_ix cfg) c = Some type /\ In c (g_all_ix cfg).
Proof. intros MC I C. split; [apply (config_type_of d kw cfg c type MC); eauto|apply (config_all_ix d kw cfg c MC); eauto]. Qed.
Lemma hppc_of_listed d kw cfg type ixs c : make_config d kw = Ok cfg -> In (type, ixs) d -> In c ixs -> mem_z c (g_hppc cfg) = contains "hppc" (lower type).
Proof.
  intros MC I C. destruct (config_words d kw cfg MC c) as (H & _). destruct (contains "hppc" (lower type)) eqn:B.
  - apply mem_z_iff, H. eauto.
  - apply mem_z_false. intro K. apply H in K as (t & l & I' & C' & B').
    assert (t = type); [|subst; congruence].
    pose proof (proj2 (config_type_of d kw cfg c t MC) (ex_intro _ l (conj I' C'))) as T1. pose proof (proj2 (config_type_of d kw cfg c type MC) (ex_intro _ ixs (conj I C))) as T2. congruence.
Qed.

(** Every step of every diagnostic cycle whose voltage spans at least [v_delta_min] has [voltage_resolution]
    rows, at equally spaced voltages between the smallest and the largest voltage of the step, whose values
    are interpolated in the records of that step only. *)
Theorem C88_step_on_voltage d kw cfg tres vres v_delta_min fallback col raw out :
  make_config d kw = Ok cfg -> interpolate_diagnostic (Some cfg) tres vres v_delta_min fallback col raw = Ok out -> (2 <= vres)%nat ->
  forall type ixs c, In (type, ixs) d -> In c ixs -> (fallback = None \/ contains "hppc" (lower type) = true) ->
  forall parts i step s lo hi, cut_into_steps (of_cycle raw c) parts -> nth_error parts i = Some step -> (forall r, In r step -> step_index r = s) ->
  is_min (map voltage step) lo -> is_max (map voltage step) hi -> lo < hi -> v_delta_min <= hi - lo ->
  exists block, Permutation block (filter (of_step c (1 + Z.of_nat i)) out) /\ describes raw c s type step false col lo hi vres block.
Proof.
  intros MC E N2 type ixs c I C FB parts i step s lo hi CUT N S LO HI L DV.
  destruct (type_of_listed _ _ _ _ _ _ MC I C) as [TY AL].
  destruct (step_block _ _ _ _ _ _ _ _ _ _ _ _ _ E AL CUT N S) as (block & EG & P). exists block. split; [exact P|].
  destruct (is_min_col _ _ LO) as (lo' & ELO & QLO). destruct (is_max_col _ _ HI) as (hi' & EHI & QHI).
  apply (describes_eq raw c s type step false col lo hi lo' hi' vres block QLO QHI).
  assert (AX : diag_axis (mem_z c (g_hppc cfg)) v_delta_min fallback step = (AxVoltage, (Some lo', Some hi'))).
  { unfold diag_axis. rewrite ELO, EHI, (hppc_of_listed _ _ _ _ _ _ MC I C). cbn [fst snd nsub nge nlt].
    assert (G : Qle_bool v_delta_min (hi' - lo') = true) by (apply Qle_bool_iff; lra). rewrite G, andb_true_r.
    destruct FB as [-> | ->]; [|reflexivity]. destruct (contains "hppc" (lower type)); [reflexivity|].
    assert (H : Qlt_bool (hi' - lo') v_delta_min = false) by (apply Qlt_bool_false; lra). rewrite H. reflexivity. }
  apply (block_describes cfg tres vres v_delta_min fallback col raw c s _ step block AxVoltage lo' hi' type EG AX); [left; reflexivity|lra|exact TY| |exact N2].
  eapply step_in; eassumption.
Qed.
(** A step whose voltage spans less has [time_resolution] rows, at equally spaced times. *)
Theorem C88_step_on_time d kw cfg tres vres v_delta_min fallback col raw out :
  make_config d kw = Ok cfg -> interpolate_diagnostic (Some cfg) tres vres v_delta_min fallback col raw = Ok out -> (2 <= tres)%nat ->
  forall type ixs c, In (type, ixs) d -> In c ixs ->
  forall parts i step s lo hi t0 t1, cut_into_steps (of_cycle raw c) parts -> nth_error parts i = Some step -> (forall r, In r step -> step_index r = s) ->
  is_min (map voltage step) lo -> is_max (map voltage step) hi -> hi - lo < v_delta_min ->
  is_min (map test_time step) t0 -> is_max (map test_time step) t1 -> t0 < t1 ->
  exists block, Permutation block (filter (of_step c (1 + Z.of_nat i)) out) /\ describes raw c s type step true col t0 t1 tres block.
Proof.
  intros MC E N2 type ixs c I C parts i step s lo hi t0 t1 CUT N S LO HI DV T0 T1 L.
  destruct (type_of_listed _ _ _ _ _ _ MC I C) as [TY AL].
  destruct (step_block _ _ _ _ _ _ _ _ _ _ _ _ _ E AL CUT N S) as (block & EG & P). exists block. split; [exact P|].
  destruct (is_min_col _ _ LO) as (lo' & ELO & QLO). destruct (is_max_col _ _ HI) as (hi' & EHI & QHI).
  destruct (is_min_col _ _ T0) as (t0' & ET0 & QT0). destruct (is_max_col _ _ T1) as (t1' & ET1 & QT1).
  apply (describes_eq raw c s type step true col t0 t1 t0' t1' tres block QT0 QT1).
  assert (AX : diag_axis (mem_z c (g_hppc cfg)) v_delta_min fallback step = (AxTime, (Some t0', Some t1'))).
  { unfold diag_axis. rewrite ELO, EHI, ET0, ET1. cbn [fst snd nsub nge nlt].
    assert (G : Qle_bool v_delta_min (hi' - lo') = false).
    { apply not_true_iff_false. intro K. apply Qle_bool_iff in K. lra. }
    rewrite G, andb_false_r. assert (H : Qlt_bool (hi' - lo') v_delta_min = true) by (apply Qlt_bool_iff; lra). rewrite H. reflexivity. }
  apply (block_describes cfg tres vres v_delta_min fallback col raw c s _ step block AxTime t0' t1' type EG AX); [right; reflexivity|lra|exact TY| |exact N2].
  eapply step_in; eassumption.
Qed.
(** Nothing else is in the result: each row is for one step of one diagnostic cycle of the raw data, with the
    type of that cycle. *)
Theorem C88_only_steps_of_diagnostic_cycles d kw cfg tres vres v_delta_min fallback col raw out :
  make_config d kw = Ok cfg -> interpolate_diagnostic (Some cfg) tres vres v_delta_min fallback col raw = Ok out ->
  forall r, In r out -> exists ixs parts i step, In (k_type r, ixs) d /\ In (k_cycle r) ixs /\
    cut_into_steps (of_cycle raw (k_cycle r)) parts /\ nth_error parts i = Some step /\ k_counter r = (1 + Z.of_nat i)%Z /\
    forall x, In x step -> step_index x = k_step r.
Proof.
  intros MC E r I. apply whole_inv in E as (blocks & F & ->). apply (Permutation_in _ (sort_k_perm _)), in_concat in I as (b & B & I).
  apply In_nth_error in B as (j & B). assert (G : exists g, In g (groups raw (g_all_ix cfg)) /\ interpolate_group cfg tres vres v_delta_min fallback col raw g = Ok b).
  { clear I. revert j B. induction F as [|g b' gs bs H F IH]; intros [|j] B; try discriminate.
    - injection B as ->. exists g. split; [left; reflexivity|exact H].
    - destruct (IH j B) as (g' & G & H'). exists g'. split; [right; exact G|exact H']. }
  destruct G as (g & G & EG). pose proof EG as EI. apply group_inv in EI as (ax & a & b' & type & st & Sy & Sq & Sd & St & Sv & rows & _ & TY & _ & _ & _ & _ & _ & _ & BL & _ & R).
  assert (IR : In r rows) by (rewrite BL in I; destruct (length rows <? 2)%nat; [destruct I|exact I]).
  apply In_nth_error in IR as (n & N). destruct (R n r N) as (_ & _ & _ & _ & C & T & S & K & _).
  apply (config_type_of d kw cfg (u_cycle g) type MC) in TY as (ixs & D1 & D2).
  unfold groups in G. apply in_flat_map in G as (c & _ & G). destruct (cut_exists (cycle_rows raw c)) as (parts & CUT).
  apply (proj1 (step_groups_in raw c parts g CUT)) in G. destruct G as (i & p & s & NP & SS & ->). cbn [u_cycle u_step u_counter] in *.
  exists ixs, parts, i, p. rewrite T, C, S, K. repeat (split; [assumption|]). split; [reflexivity|exact SS].
Qed.
(** The rows are in the order of the cycles, in a cycle in the order of its steps, and in a step in the order of time. *)
Theorem C88_in_order cfg tres vres v_delta_min fallback col raw out :
  interpolate_diagnostic cfg tres vres v_delta_min fallback col raw = Ok out -> StronglySorted not_after out.
Proof. destruct cfg as [cfg|]; [|discriminate]. intro E. apply whole_inv in E as (blocks & _ & ->). apply sort_k_sorted. Qed.

Lemma col_min_known l : l <> [] -> (forall x, In x l -> x <> None) -> exists m, col_min l = Some m.
Proof.
  intros NE K. pose proof (col_min_reports l) as R. destruct (col_min l) as [m|]; [eauto|]. destruct l as [|[x|] l]; [congruence| |exfalso; apply (K None); [left; reflexivity|reflexivity]].
  exfalso. apply (R x). left; reflexivity.
Qed.
Lemma col_max_known l : l <> [] -> (forall x, In x l -> x <> None) -> exists m, col_max l = Some m.
Proof.
  intros NE K. pose proof (col_max_reports l) as R. destruct (col_max l) as [m|]; [eauto|]. destruct l as [|[x|] l]; [congruence| |exfalso; apply (K None); [left; reflexivity|reflexivity]].
  exfalso. apply (R x). left; reflexivity.
Qed.
Lemma axis_samples_total ax f rows : (forall r, In r rows -> axis_val ax r <> None) -> exists s, axis_samples ax f rows = Ok s.
Proof.
  unfold axis_samples. induction rows as [|r rows IH]; intro H; [exists []; reflexivity|]. cbn [mapM].
  destruct (axis_val ax r) as [x|] eqn:A; [|destruct (H r (or_introl eq_refl) A)]. cbn [bind].
  destruct IH as (s & ->); [intros; apply H; right; assumption|]. cbn [bind]. eauto.
Qed.
Lemma index_z_total x l : In x l -> forall i, exists n, index_z x l i = Ok n.
Proof. induction l as [|y l IH]; intros H i; [destruct H|]. cbn. destruct (Z.eqb_spec x y); [eauto|]. apply IH. destruct H; [congruence|assumption]. Qed.
Lemma group_total cfg tres vres dvm fb col raw c parts i p s type :
  cut_into_steps (cycle_rows raw c) parts -> nth_error parts i = Some p -> (forall r, In r p -> step_index r = s) ->
  (forall r, In r p -> voltage r <> None /\ test_time r <> None) -> d_get Z.eqb (g_by_ix cfg) c = Some type ->
  exists b, interpolate_group cfg tres vres dvm fb col raw {| u_cycle := c; u_step := s; u_counter := (1 + Z.of_nat i)%Z; u_rows := p |} = Ok b.
Proof.
  intros CUT N S K TY. unfold interpolate_group. cbn [u_cycle u_step u_counter u_rows].
  destruct CUT as (ER & A & B). destruct (A p (nth_error_In _ _ N)) as [NE _].
  assert (NV : map voltage p <> []) by (destruct p; [congruence|discriminate]). assert (NT : map test_time p <> []) by (destruct p; [congruence|discriminate]).
  assert (KV : forall x, In x (map voltage p) -> x <> None) by (intros x X; apply in_map_iff in X as (r & <- & X); apply K, X).
  assert (KT : forall x, In x (map test_time p) -> x <> None) by (intros x X; apply in_map_iff in X as (r & <- & X); apply K, X).
  destruct (col_min_known _ NV KV) as (v0 & V0). destruct (col_max_known _ NV KV) as (v1 & V1). destruct (col_min_known _ NT KT) as (t0 & T0). destruct (col_max_known _ NT KT) as (t1 & T1).
  assert (AX : exists ax a b, diag_axis (mem_z c (g_hppc cfg)) dvm fb p = (ax, (Some a, Some b)) /\ (ax = AxVoltage \/ ax = AxTime)).
  { unfold diag_axis. rewrite V0, V1, T0, T1. destruct (_ && _); [eauto 7|]. destruct (nlt _ _); [eauto 7|]. destruct fb as [[x y]|]; eauto 7. }
  destruct AX as (ax & a & b & -> & OT).
  assert (AV : forall r, In r p -> axis_val ax r <> None) by (intros r R; destruct OT as [-> | ->]; apply K, R).
  destruct (axis_samples_total ax col p AV) as (s1 & ->). destruct (axis_samples_total ax charge_capacity p AV) as (s2 & ->). destruct (axis_samples_total ax discharge_capacity p AV) as (s3 & ->).
  destruct (axis_samples_total ax test_time p AV) as (s4 & ->). destruct (axis_samples_total ax voltage p AV) as (s5 & ->). cbn [bind interpolate_df]. rewrite TY. cbn [bind].
  destruct (index_z_total s (uniq (map step_index (cycle_rows raw c)))) with (i := 0%Z) as (n & ->); [|cbn [bind]; eauto].
  apply (proj2 (uniq_in _ _)). eapply (step_in raw c parts i p s); [split; [exact ER|split; assumption]|exact N|exact S].
Qed.
(** It succeeds whenever the voltages and times of the diagnostic cycles are known and some diagnostic step has
    a voltage span of at least [v_delta_min], for instance. *)
Theorem C88_succeeds d kw cfg tres vres v_delta_min fallback col raw :
  make_config d kw = Ok cfg -> (2 <= vres)%nat -> (fallback = None) ->
  (forall r type ixs, In r raw -> In (type, ixs) d -> In (cycle_index r) ixs -> voltage r <> None /\ test_time r <> None) ->
  (exists type ixs c parts step lo hi, In (type, ixs) d /\ In c ixs /\ cut_into_steps (of_cycle raw c) parts /\ In step parts /\
     is_min (map voltage step) lo /\ is_max (map voltage step) hi /\ lo < hi /\ v_delta_min <= hi - lo) ->
  exists out, interpolate_diagnostic (Some cfg) tres vres v_delta_min fallback col raw = Ok out.
Proof.
  intros MC N2 FB K (type & ixs & c & parts & step & lo & hi & I & C & CUT & IP & LO & HI & L & DV).
  assert (ALL : forall g, In g (groups raw (g_all_ix cfg)) -> exists b, interpolate_group cfg tres vres v_delta_min fallback col raw g = Ok b).
  { intros g G. unfold groups in G. apply in_flat_map in G as (c' & CI & G). apply (proj1 (sort_z_in _ _)), filter_In in CI as [_ CI]. apply mem_z_iff in CI.
    apply (config_all_ix d kw cfg c' MC) in CI as (t' & l' & D1 & D2). destruct (cut_exists (cycle_rows raw c')) as (ps & CUT').
    apply (proj1 (step_groups_in raw c' ps g CUT')) in G. destruct G as (i & p & s & NP & SS & ->).
    eapply group_total; [exact CUT'|exact NP|exact SS| |apply (config_type_of d kw cfg c' t' MC); eauto].
    intros r R. assert (RC : In r (cycle_rows raw c')) by (destruct CUT' as (-> & _); apply in_concat; exists p; split; [eapply nth_error_In, NP|exact R]).
    apply filter_In in RC as [RR RC]. apply Z.eqb_eq in RC. eapply K; [exact RR|exact D1|rewrite RC; exact D2]. }
  assert (MM : exists blocks, mapM (interpolate_group cfg tres vres v_delta_min fallback col raw) (groups raw (g_all_ix cfg)) = Ok blocks).
  { revert ALL. generalize (groups raw (g_all_ix cfg)). induction l as [|g l IH]; intro ALL; [exists []; reflexivity|]. cbn [mapM].
    destruct (ALL g (or_introl eq_refl)) as (b & ->). cbn [bind]. destruct IH as (bs & ->); [intros; apply ALL; right; assumption|]. cbn [bind]. eauto. }
  destruct MM as (blocks & MM). cbn [interpolate_diagnostic]. rewrite MM. cbn [bind].
  destruct (filter _ blocks) as [|b0 bs] eqn:FI; [|eauto]. exfalso.
  apply In_nth_error in IP as (i & NP). assert (CUT2 := CUT). destruct CUT2 as (_ & A & _). destruct (A step (nth_error_In _ _ NP)) as [NE SAME]. destruct step as [|r0 step]; [congruence|].
  assert (S : forall r, In r (r0 :: step) -> step_index r = step_index r0) by (intros r R; apply SAME; [exact R|left; reflexivity]).
  destruct (type_of_listed _ _ _ _ _ _ MC I C) as [TY AL].
  pose proof (groups_in raw (g_all_ix cfg) c parts i (r0 :: step) (step_index r0) CUT NP S AL) as G.
  apply mapM_ok in MM. destruct (select _ _ _ _ _ _ _ _ _ MM (groups_nodup raw (g_all_ix cfg)) _ G) as (b & EG & FB').
  assert (EMP : concat blocks = []) by (rewrite <- concat_nonempty, FI; reflexivity). rewrite EMP in FB'. cbn in FB'. subst b.
  destruct (is_min_col _ _ LO) as (lo' & ELO & QLO). destruct (is_max_col _ _ HI) as (hi' & EHI & QHI).
  assert (AX : diag_axis (mem_z c (g_hppc cfg)) v_delta_min fallback (r0 :: step) = (AxVoltage, (Some lo', Some hi'))).
  { unfold diag_axis. rewrite ELO, EHI. cbn [fst snd nsub nge nlt].
    assert (GE : Qle_bool v_delta_min (hi' - lo') = true) by (apply Qle_bool_iff; lra). rewrite GE, andb_true_r.
    destruct (mem_z c (g_hppc cfg)); [reflexivity|]. assert (H : Qlt_bool (hi' - lo') v_delta_min = false) by (apply Qlt_bool_false; lra). rewrite H, FB. reflexivity. }
  pose proof (block_describes cfg tres vres v_delta_min fallback col raw c (step_index r0) _ (r0 :: step) [] AxVoltage lo' hi' type EG AX (or_introl eq_refl)) as (EQ & _); [lra|exact TY|eapply step_in; eassumption|exact N2|].
  destruct EQ as [EQ _]. cbn in EQ. lia.
Qed.
(** Without a diagnostic configuration it is refused. *)
Theorem C88_needs_a_configuration tres vres v_delta_min fallback col raw : interpolate_diagnostic None tres vres v_delta_min fallback col raw = Err ValueError.
Proof. reflexivity. Qed.
Definition rec (c s : Z) (t v : Q) (q d : Q) : row :=
  {| cycle_index := c; step_index := s; test_time := Some t; voltage := Some v; current := Some (if Qeq_bool d 0 then 1 else -1);
     charge_capacity := Some q; discharge_capacity := Some d; charge_energy := Some (3 * q); discharge_energy := Some (3 * d);
     internal_resistance := None; temperature := Some (25 + t / 100); date_time := Some (Qnum t); wf_chg_cap := None; wf_dis_cap := None |}.
Definition ex_types : list (string * list Z) := [("rpt_1C", [1%Z; 7%Z]); ("hppc", [2%Z])]%string.
Definition ex_step1 := [rec 1 1 0 3 0 0; rec 1 1 10 (35 # 10) (1 # 2) 0; rec 1 1 20 4 1 0].
Definition ex_rest := [rec 1 2 30 4 1 0; rec 1 2 50 4 1 0].
Definition ex_step2 := [rec 1 1 60 4 1 (1 # 10); rec 1 1 70 3 1 1].
Definition ex_run := rec 0 1 (-10) 3 1 1 :: ex_step1 ++ ex_rest ++ ex_step2 ++ [rec 2 1 80 (31 # 10) 0 0; rec 2 1 90 (32 # 10) (1 # 2) 0; rec 3 1 100 3 0 0].
(** Finding (C88): [dv_fallback] is documented as a range used when the range of the step cannot be. It is used
    for every step of a cycle that is not an HPPC cycle, so the voltages of the rows are outside what the step measured,
    and the part of the step outside the range is lost. *)
Theorem C88_fallback_refuted : exists cfg out lo hi, make_config ex_types [] = Ok cfg /\
  interpolate_diagnostic (Some cfg) 3 3 (1 # 1000) (Some (36 # 10, 46 # 10)) current ex_run = Ok out /\
  is_min (map voltage ex_step1) lo /\ is_max (map voltage ex_step1) hi /\ lo < hi /\ 1 # 1000 <= hi - lo /\
  map (fun r => Qred (k_x r)) (filter (of_step 1 1) out) = [18 # 5; 41 # 10; 23 # 5] /\ hi < 41 # 10 /\ lo < 18 # 5.
Proof.
  destruct (make_config ex_types []) as [cfg|] eqn:MC; [|vm_compute in MC; discriminate].
  assert (CF : cfg = match make_config ex_types [] with Ok c => c | Err _ => cfg end) by (rewrite MC; reflexivity). vm_compute in CF.
  destruct (interpolate_diagnostic (Some cfg) 3 3 (1 # 1000) (Some (36 # 10, 46 # 10)) current ex_run) as [out|] eqn:E; [|exfalso; subst cfg; vm_compute in E; discriminate].
  exists cfg, out, 3, 4. split; [reflexivity|]. split; [exact E|]. subst cfg.
  split. { split; [left; reflexivity|]. intros q [H|[H|[H|[]]]]; injection H as <-; lra. }
  split. { split; [right; right; left; reflexivity|]. intros q [H|[H|[H|[]]]]; injection H as <-; lra. }
  split; [lra|]. split; [lra|]. split; [|split; lra]. vm_compute in E. injection E as <-. vm_compute. reflexivity.
Qed.
(** Finding (C88): a run that stops before its first diagnostic cycle cannot be interpolated. The failure is the
    ValueError of an empty concatenation, so such a run cannot be structured at all. *)
Theorem C88_short_run_refuted d kw cfg tres vres v_delta_min fallback col raw :
  make_config d kw = Ok cfg -> (forall r type ixs, In r raw -> In (type, ixs) d -> ~ In (cycle_index r) ixs) ->
  interpolate_diagnostic (Some cfg) tres vres v_delta_min fallback col raw = Err ValueError.
Proof.
  intros MC H. cbn [interpolate_diagnostic]. assert (G : groups raw (g_all_ix cfg) = []); [|rewrite G; reflexivity].
  unfold groups. assert (F : filter (fun c => mem_z c (g_all_ix cfg)) (uniq (map cycle_index raw)) = []); [|rewrite F; reflexivity].
  destruct (filter _ _) as [|c l] eqn:F; [reflexivity|]. exfalso. assert (I : In c (c :: l)) by (left; reflexivity). rewrite <- F in I. apply filter_In in I as [I M].
  apply mem_z_iff in M. apply (config_all_ix d kw cfg c MC) in M as (t & ixs & D1 & D2). apply (proj1 (uniq_in _ _)), in_map_iff in I as (r & <- & I). exact (H r t ixs I D1 D2).
Qed.

Example C88_hyps : exists cfg out, make_config ex_types [] = Ok cfg /\
  interpolate_diagnostic (Some cfg) 2 3 (1 # 1000) None current ex_run = Ok out /\
  In ("rpt_1C"%string, [1%Z; 7%Z]) ex_types /\ cut_into_steps (of_cycle ex_run 1) [ex_step1; ex_rest; ex_step2] /\
  is_min (map voltage ex_step1) 3 /\ is_max (map voltage ex_step1) 4 /\ is_min (map voltage ex_rest) 4 /\ is_max (map voltage ex_rest) 4 /\
  is_min (map test_time ex_rest) 30 /\ is_max (map test_time ex_rest) 50 /\
  map (fun r => (k_cycle r, k_counter r, k_on_time r, Qred (k_x r))) out =
    [(1%Z, 1%Z, false, 3); (1%Z, 1%Z, false, 7 # 2); (1%Z, 1%Z, false, 4); (1%Z, 2%Z, true, 30); (1%Z, 2%Z, true, 50);
     (1%Z, 3%Z, false, 4); (1%Z, 3%Z, false, 7 # 2); (1%Z, 3%Z, false, 3);
     (2%Z, 1%Z, false, 31 # 10); (2%Z, 1%Z, false, 63 # 20); (2%Z, 1%Z, false, 16 # 5)].
Proof.
  destruct (make_config ex_types []) as [cfg|] eqn:MC; [|vm_compute in MC; discriminate].
  assert (CF : cfg = match make_config ex_types [] with Ok c => c | Err _ => cfg end) by (rewrite MC; reflexivity). vm_compute in CF.
  destruct (interpolate_diagnostic (Some cfg) 2 3 (1 # 1000) None current ex_run) as [out|] eqn:E; [|exfalso; subst cfg; vm_compute in E; discriminate].
  exists cfg, out. split; [reflexivity|]. split; [exact E|]. subst cfg. split; [left; reflexivity|].
  split.
  { split; [reflexivity|]. split.
    - intros p [<-|[<-|[<-|[]]]]; (split; [discriminate|]); intros r r' R R'; cbn in R, R'; intuition subst; reflexivity.
    - intros l p q l' K r r' R R'. destruct l as [|? [|? [|? [|? l]]]]; cbn in K; inversion K; subst; cbn in R, R'; intuition (subst; discriminate). }
  split. { split; [left; reflexivity|]. intros q [H|[H|[H|[]]]]; injection H as <-; lra. }
  split. { split; [right; right; left; reflexivity|]. intros q [H|[H|[H|[]]]]; injection H as <-; lra. }
  split. { split; [left; reflexivity|]. intros q [H|[H|[]]]; injection H as <-; lra. }
  split. { split; [left; reflexivity|]. intros q [H|[H|[]]]; injection H as <-; lra. }
  split. { split; [left; reflexivity|]. intros q [H|[H|[]]]; injection H as <-; lra. }
  split. { split; [right; left; reflexivity|]. intros q [H|[H|[]]]; injection H as <-; lra. }
  vm_compute in E. injection E as <-. vm_compute. reflexivity.
Qed.

(** ** C89 *)
(** [x] is the ratio of two known values, missing when one of them is missing or the second is 0. *)
Definition reports_ratio (a b x : num) : Prop :=
  match a, b with Some p, Some q => if Qeq_bool q 0 then x = None else exists v, x = Some v /\ v * q == p | _, _ => x = None end.
(** The values of a row of the summary are those of the records of its cycle. *)
Definition own_diagnostic (raw : list row) (g : grow) : Prop :=
  let rows := of_cycle raw (gs_cycle g) in
  reports_max (map discharge_capacity rows) (gs_dis g) /\ reports_max (map charge_capacity rows) (gs_chg g) /\
  reports_max (map discharge_energy rows) (gs_dis_en g) /\ reports_max (map charge_energy rows) (gs_chg_en g) /\
  reports_ratio (gs_dis g) (gs_chg g) (gs_eff g) /\
  reports_max (map temperature rows) (gs_tmax g) /\ reports_mean (map temperature rows) (gs_tavg g) /\ reports_min (map temperature rows) (gs_tmin g) /\
  (forall t, gs_date g = Some t <-> first_stamp rows t) /\ paused_spec (map date_time rows) 3600 (gs_paused g).
Lemma cv_default_total l : exists cv, cv_default l = Ok cv.
Proof.
  unfold cv_default, cv_segment. destruct l as [|x l]; [eauto|]. set (i := cv_index _ _ _ _).
  assert (I : (i < length (x :: l))%nat).
  { unfold i. clear i. generalize (1 : Q) (1 # 100000) (1 # 10000). revert x. induction l as [|y l IH]; intros x a b c; [cbn; lia|].
    change (cv_index a b c (x :: y :: l)) with (if not_cv a b c x y then S (cv_index a b c (y :: l)) else O). specialize (IH y a b c). cbn [length] in *. destruct (not_cv a b c x y); lia. }
  unfold py_nth. destruct (Z.leb_spec 0 (Z.of_nat i - 1)).
  - destruct (nth_error _ _) eqn:N; [eauto|]. apply nth_error_None in N. lia.
  - destruct (Z.leb_spec 0 (Z.of_nat (length (x :: l)) + (Z.of_nat i - 1))); [|lia]. destruct (nth_error _ _) eqn:N; [eauto|]. apply nth_error_None in N. lia.
Qed.
Lemma row_inv cfg raw c g : diagnostic_row cfg raw c = Ok g -> gs_cycle g = c /\ d_get Z.eqb (g_by_ix cfg) c = Some (gs_type g) /\ own_diagnostic raw g /\
  exists cv, cv_default (filter (fun r => Z.eqb (step_index r) (min_z (map step_index (of_cycle raw c)))) (of_cycle raw c)) = Ok cv /\
    gs_cv_time g = cv_time cv /\ gs_cv_current g = cv_current cv /\ gs_cv_cap g = cv_capacity cv.
Proof.
  unfold diagnostic_row. destruct (d_get Z.eqb (g_by_ix cfg) c) as [type|]; [|discriminate]. cbn [bind]. change cycle_rows with of_cycle in *.
  destruct (cv_default _) as [cv|] eqn:CV; [|discriminate]. cbn [bind]. intro E. injection E as <-.
  unfold own_diagnostic. cbn [gs_cycle gs_type gs_dis gs_chg gs_dis_en gs_chg_en gs_eff gs_tmax gs_tavg gs_tmin gs_date gs_paused gs_cv_time gs_cv_current gs_cv_cap].
  split; [reflexivity|]. split; [reflexivity|]. split; [|exists cv; auto].
  do 4 (split; [apply col_max_reports|]). split.
  { unfold reports_ratio, ndiv_finite. destruct (col_max (map discharge_capacity (of_cycle raw c))) as [p|], (col_max (map charge_capacity (of_cycle raw c))) as [q|]; try reflexivity.
    destruct (Qeq_bool q 0) eqn:Z; [reflexivity|]. exists (p / q). split; [reflexivity|]. field. intro K. apply Qeq_bool_iff in K. congruence. }
  split; [apply col_max_reports|]. split; [apply mean_reports|]. split; [apply col_min_reports|]. split; [intro t; apply first_valid_stamp|apply max_paused_spec].
Qed.
(** For every accepted configuration and all raw data there is a summary. Its rows are the diagnostic cycles of the raw data in
    ascending order, each with the type of its cycle and the values of its own records. *)
Theorem C89_diagnostic_summary d kw cfg raw : make_config d kw = Ok cfg -> exists out, summarize_diagnostic cfg raw = Ok out /\
  StronglySorted Z.lt (map gs_cycle out) /\
  (forall c, In c (map gs_cycle out) <-> (exists r, In r raw /\ cycle_index r = c) /\ exists type ixs, In (type, ixs) d /\ In c ixs) /\
  forall g, In g out -> (exists ixs, In (gs_type g, ixs) d /\ In (gs_cycle g) ixs) /\ own_diagnostic raw g.
Proof.
  intro MC. unfold summarize_diagnostic. set (cs := filter _ _).
  assert (IN : forall c, In c cs <-> (exists r, In r raw /\ cycle_index r = c) /\ exists type ixs, In (type, ixs) d /\ In c ixs).
  { intro c. unfold cs. rewrite filter_In, cycles_of_in, mem_z_iff, (config_all_ix d kw cfg c MC). reflexivity. }
  assert (MM : exists out, mapM (diagnostic_row cfg raw) cs = Ok out).
  { assert (T : forall c, In c cs -> exists g, diagnostic_row cfg raw c = Ok g).
    { intros c C. apply IN in C as (_ & type & ixs & D1 & D2). unfold diagnostic_row. rewrite (proj2 (config_type_of d kw cfg c type MC) (ex_intro _ ixs (conj D1 D2))). cbn [bind].
      match goal with |- context[cv_default ?l] => destruct (cv_default_total l) as (cv & ->) end. cbn [bind]. eauto. }
    revert T. clear. induction cs as [|c l IH]; intro T; [exists []; reflexivity|]. cbn [mapM]. destruct (T c (or_introl eq_refl)) as (g & ->). cbn [bind].
    destruct IH as (out & ->); [intros; apply T; right; assumption|]. cbn [bind]. eauto. }
  destruct MM as (out & MM). exists out. split; [exact MM|]. apply mapM_ok in MM.
  assert (EC : map gs_cycle out = cs).
  { clear IN. induction MM as [|c g l out H MM IH]; [reflexivity|]. cbn. rewrite IH. f_equal. apply row_inv in H. tauto. }
  split; [rewrite EC; unfold cs; apply SS_filter, cycles_of_sorted|]. split; [intro c; rewrite EC; apply IN|].
  intros g G. clear EC IN. induction MM as [|c g' l out H MM IH]; [destruct G|]. destruct G as [->|G]; [|apply IH, G].
  apply row_inv in H as (<- & T & O & _). split; [apply (config_type_of d kw cfg (gs_cycle g) (gs_type g) MC), T|exact O].
Qed.

Lemma min_z_spec l : l <> [] -> In (min_z l) l /\ forall x, In x l -> (min_z l <= x)%Z.
Proof.
  destruct l as [|a l]; [congruence|]. intros _. cbn [min_z].
  assert (G : forall l a, (In (fold_left Z.min l a) l \/ fold_left Z.min l a = a) /\ (fold_left Z.min l a <= a)%Z /\ forall x, In x l -> (fold_left Z.min l a <= x)%Z).
  { clear. induction l as [|b l IH]; intro a; cbn; [split; [right; reflexivity|]; split; [lia|intros ? []]|].
    destruct (IH (Z.min a b)) as (A & B & C). split; [|split; [lia|intros x [<-|X]; [lia|apply C, X]]].
    destruct A as [A|A]; [left; right; exact A|]. destruct (Z.min_spec a b) as [[_ M]|[_ M]]; rewrite M in A; [right|left; left]; congruence. }
  destruct (G l a) as (A & B & C). split; [destruct A as [A| ->]; [right; exact A|left; reflexivity]|]. intros x [<-|X]; [exact B|apply C, X].
Qed.
(** The constant voltage values of a diagnostic cycle are read between two records of the step with the smallest step index:
    its last one, and the one before the first pair of records at constant voltage. *)
Theorem C89_constant_voltage d kw cfg raw out : make_config d kw = Ok cfg -> summarize_diagnostic cfg raw = Ok out ->
  forall g s charge, In g out -> (exists r, In r (of_cycle raw (gs_cycle g)) /\ step_index r = s) ->
  (forall r, In r (of_cycle raw (gs_cycle g)) -> (s <= step_index r)%Z) ->
  charge = filter (fun r => Z.eqb (step_index r) s) (of_cycle raw (gs_cycle g)) -> Forall complete_row charge -> in_time_order charge ->
  exists k first last, nth_error charge k = Some first /\ last_error charge = Some last /\
    gs_cv_time g = nsub (test_time last) (test_time first) /\ gs_cv_current g = current last /\ gs_cv_cap g = nsub (charge_capacity last) (charge_capacity first) /\
    (forall i, cv_pair charge 1 (1 # 100000) (1 # 10000) i -> (forall j, (j < i)%nat -> ~ cv_pair charge 1 (1 # 100000) (1 # 10000) j) ->
       k = match i with O => (length charge - 1)%nat | S i' => i' end) /\
    ((forall i, ~ cv_pair charge 1 (1 # 100000) (1 # 10000) i) -> k = (length charge - 2)%nat).
Proof.
  intros MC E g s charge G (r0 & R0 & S0) MIN EC CR IT. unfold summarize_diagnostic in E. apply mapM_ok in E.
  assert (RI : exists c, diagnostic_row cfg raw c = Ok g).
  { clear -E G. induction E as [|c g' l out H E IH]; [destruct G|]. destruct G as [->|G]; [eauto|apply IH, G]. }
  destruct RI as (c & RI). apply row_inv in RI as (GC & _ & _ & cv & CV & -> & -> & ->). rewrite GC in *.
  assert (MS : min_z (map step_index (of_cycle raw c)) = s).
  { assert (NE : map step_index (of_cycle raw c) <> []) by (destruct (of_cycle raw c); [destruct R0|discriminate]).
    destruct (min_z_spec _ NE) as [A B]. apply in_map_iff in A as (r & EA & A). pose proof (MIN r A). pose proof (B s). idtac.
    assert (In s (map step_index (of_cycle raw c))) by (apply in_map_iff; eauto). specialize (H0 H1). lia. }
  rewrite MS, <- EC in CV.
  assert (NE : charge <> []). { rewrite EC. intro K. assert (I : In r0 []) by (rewrite <- K; apply filter_In; split; [exact R0|apply Z.eqb_eq, S0]). destruct I. }
  destruct (cv_segment_spec 1 (1 # 100000) (1 # 10000) charge) as (k & SEG & LK & A & B); [lra|exact CR|exact IT|exact NE|].
  unfold cv_default in CV. rewrite SEG in CV. injection CV as <-.
  destruct (nth_error charge k) as [first|] eqn:NF; [|apply nth_error_None in NF; lia].
  assert (SK : skipn k charge = first :: skipn (S k) charge).
  { clear -NF. revert k NF. induction charge as [|x l IH]; intros [|k] NF; try discriminate; cbn in *; [injection NF as ->; reflexivity|apply IH, NF]. }
  assert (LE : last_error (skipn k charge) = last_error charge).
  { clear -LK. revert k LK. induction charge as [|x l IH]; intros [|k] LK; cbn [length] in LK; try lia; [reflexivity|]. cbn [skipn]. rewrite IH by lia. destruct l; [cbn in LK; lia|reflexivity]. }
  destruct (last_error charge) as [lst|] eqn:LL; [|exfalso; clear -LL NE; induction charge as [|x [|y l] IH]; [congruence|discriminate|apply IH; [discriminate|exact LL]]].
  exists k, first, lst. split; [exact NF|]. split; [reflexivity|]. unfold cv_time, cv_current, cv_capacity. rewrite SK in *. rewrite LE. repeat (split; [reflexivity|]). split; [exact A|exact B].
Qed.
(** Finding (C89): the step with the smallest index is taken for the charge. When the charge has a higher step index
    than another step of the cycle, the constant voltage values are those of the other step: here a discharge. *)
Theorem C89_charge_step_refuted : exists d cfg raw g, make_config d [] = Ok cfg /\ summarize_diagnostic cfg raw = Ok [g] /\
  (exists r, In r raw /\ step_index r = 8%Z /\ current r = Some 1) /\ (forall r, In r raw -> step_index r = 3%Z -> current r = Some (-1)) /\
  gs_cv_current g = Some (-1).
Proof.
  exists [("rpt"%string, [1%Z])]. destruct (make_config _ []) as [cfg|] eqn:MC; [|vm_compute in MC; discriminate].
  assert (CF : cfg = match make_config [("rpt"%string, [1%Z])] [] with Ok c => c | Err _ => cfg end) by (rewrite MC; reflexivity). vm_compute in CF.
  set (raw := [rec 1 8 0 3 0 0; rec 1 8 10 4 1 0; rec 1 3 20 4 1 (1 # 10); rec 1 3 30 3 1 1]).
  destruct (summarize_diagnostic cfg raw) as [out|] eqn:E; [|exfalso; subst cfg; vm_compute in E; discriminate]. subst cfg. vm_compute in E. injection E as E.
  eexists _, raw, _. split; [reflexivity|]. split; [vm_compute; reflexivity|]. split.
  - eexists. split; [left; reflexivity|]. split; reflexivity.
  - split; [intros r R S; cbn in R; intuition subst; try discriminate; reflexivity|reflexivity].
Qed.
Example C89_hyps : exists cfg out, make_config ex_types [] = Ok cfg /\ summarize_diagnostic cfg ex_run = Ok out /\
  map (fun g => (gs_cycle g, gs_type g, option_map Qred (gs_eff g), option_map Qred (gs_tavg g), option_map Qred (gs_cv_time g))) out =
    [(1%Z, "rpt_1C"%string, Some 1, Some (887 # 35), Some 60); (2%Z, "hppc"%string, Some 0, Some (517 # 20), Some 10)].
Proof.
  destruct (make_config ex_types []) as [cfg|] eqn:MC; [|vm_compute in MC; discriminate].
  assert (CF : cfg = match make_config ex_types [] with Ok c => c | Err _ => cfg end) by (rewrite MC; reflexivity). vm_compute in CF.
  eexists cfg, _. split; [reflexivity|]. subst cfg. split; [vm_compute; reflexivity|]. vm_compute. reflexivity.
Qed.
Example C89_cv_hyps : let charge := filter (fun r => Z.eqb (step_index r) 1) (of_cycle ex_run 1) in
  Forall complete_row charge /\ in_time_order charge /\ (length charge = 5)%nat.
Proof.
  split; [vm_compute; repeat constructor; repeat eexists|]. split; [|reflexivity].
  unfold in_time_order. cbn.
  repeat (constructor; [|repeat (constructor; [intros t u H K; injection H as <-; injection K as <-; vm_compute; reflexivity|]); constructor]). constructor.
Qed.

Print Assumptions C88_step_on_voltage.
Print Assumptions C88_step_on_time.
Print Assumptions C88_only_steps_of_diagnostic_cycles.
Print Assumptions C88_in_order.
Print Assumptions C88_succeeds.
Print Assumptions C88_needs_a_configuration.
Print Assumptions C88_fallback_refuted.
Print Assumptions C88_short_run_refuted.
Print Assumptions C89_diagnostic_summary.
Print Assumptions C89_constant_voltage.
Print Assumptions C89_charge_step_refuted.

From Coq Require Import Permutation Sorted.
From Verif Require Import Py Num Model_Raw Model_Diagnostic Proofs_Diagnostic Model_Structure Spec_Structure
  Proofs_Interp Proofs_Structure Model_Summary Spec_Summary.

(** ** columns *)
Lemma col_max_reports l : reports_max l (col_max l).
Proof. pose proof (col_max_spec l) as H. unfold reports_max, is_max. destruct (col_max l); auto. Qed.
Lemma col_min_reports l : reports_min l (col_min l).
Proof. pose proof (col_min_spec l) as H. unfold reports_min, is_min. destruct (col_min l); auto. Qed.

Lemma cumsum_from_nth l : forall t i x, nth_error l i = Some x ->
  match x with
  | Some _ => exists s, nth_error (cumsum_from t l) i = Some (Some s) /\ s == t + total (firstn (S i) l)
  | None => nth_error (cumsum_from t l) i = Some None
  end.
Proof.
  induction l as [|y l IH]; intros t [|i] x H; simpl in H; try discriminate.
  - injection H as <-. destruct y as [v|]; simpl; auto. exists (t + v). split; auto. ring.
  - destruct y as [v|].
    + specialize (IH (t + v) i x H). destruct x.
      * destruct IH as (s & E & EQ). exists s. split; auto. rewrite EQ. simpl. ring.
      * auto.
    + specialize (IH t i x H). destruct x; auto.
Qed.
Lemma cumsum_length l : forall t, length (cumsum_from t l) = length l.
Proof. induction l as [|[v|] l IH]; intros; simpl; auto. Qed.

(** ** the summary before the last-cycle rule *)
Lemma zip3_spec {A B C} : forall (a : list A) (b : list B) (c : list C), length b = length a -> length c = length a ->
  map fst (zip3 a b c) = a /\ map (fun k => fst (snd k)) (zip3 a b c) = b /\ map (fun k => snd (snd k)) (zip3 a b c) = c.
Proof.
  induction a as [|x a IH]; intros [|y b] [|z c]; simpl; try discriminate; auto.
  intros H1 H2. destruct (IH b c) as (E1 & E2 & E3); try lia. rewrite E1, E2, E3. auto.
Qed.

Definition row_ok raw err_thr durations (s : srow) : Prop :=
  summary_row raw err_thr durations (s_cycle s) (s_chg_thr s) (s_en_thr s) = Ok s.
Lemma summary_row_inv raw e d c t1 t2 s : summary_row raw e d c t1 t2 = Ok s ->
  s_cycle s = c /\ s_chg_thr s = t1 /\ s_en_thr s = t2 /\ row_ok raw e d s /\
  s_chg s = col_max (map charge_capacity (cycle_rows raw c)) /\
  s_chg_en s = clean e (col_max (map charge_energy (cycle_rows raw c))).
Proof.
  intro H. assert (K := H). unfold summary_row in H.
  destruct (cv_default _); cbn [bind] in H; [|discriminate]. injection H as H.
  assert (E1 : s_cycle s = c) by (subst s; auto). assert (E2 : s_chg_thr s = t1) by (subst s; auto).
  assert (E3 : s_en_thr s = t2) by (subst s; auto). repeat split; auto; try (subst s; reflexivity).
  unfold row_ok. rewrite E1, E2, E3. auto.
Qed.

Lemma summary_all_inv raw diag nominal full e all : summary_all raw diag nominal full e = Ok all ->
  map s_cycle all = summary_cycles raw diag /\
  map s_chg_thr all = cumsum (map s_chg all) /\ map s_en_thr all = cumsum (map s_chg_en all) /\
  Forall (row_ok raw e (charge_durations raw nominal full)) all.
Proof.
  unfold summary_all. set (cs := summary_cycles raw diag).
  set (chgs := map _ cs). set (ens := map _ cs). set (d := charge_durations raw nominal full).
  intro H. apply mapM_ok in H.
  destruct (zip3_spec cs (cumsum chgs) (cumsum ens)) as (E1 & E2 & E3);
    try (unfold cumsum; rewrite cumsum_length; unfold chgs, ens; rewrite map_length; auto).
  assert (K : forall ks ss, Forall2 (fun k s => summary_row raw e d (fst k) (fst (snd k)) (snd (snd k)) = Ok s) ks ss ->
     map s_cycle ss = map fst ks /\ map s_chg_thr ss = map (fun k => fst (snd k)) ks /\
     map s_en_thr ss = map (fun k => snd (snd k)) ks /\ Forall (row_ok raw e d) ss /\
     map s_chg ss = map (fun c => col_max (map charge_capacity (cycle_rows raw c))) (map fst ks) /\
     map s_chg_en ss = map (fun c => clean e (col_max (map charge_energy (cycle_rows raw c)))) (map fst ks)).
  { clear. induction 1 as [|k s ks ss Hk F IH]; simpl; [repeat split; auto|].
    destruct IH as (I1 & I2 & I3 & I4 & I5 & I6). destruct (summary_row_inv _ _ _ _ _ _ _ Hk) as (J1 & J2 & J3 & J4 & J5 & J6).
    rewrite I1, I2, I3, I5, I6, J1, J2, J3, J5, J6. repeat split; auto. }
  destruct (K _ _ H) as (K1 & K2 & K3 & K4 & K5 & K6). rewrite E1 in *. rewrite E2 in K2. rewrite E3 in K3.
  rewrite K5, K6. auto.
Qed.

Lemma removelast_firstn' {A} (l : list A) : removelast l = firstn (length l - 1) l.
Proof. rewrite removelast_firstn_len. f_equal. lia. Qed.

Lemma summarize_inv raw diag nominal full ratio vmin vmax e out :
  summarize_cycles raw diag nominal full ratio vmin vmax e = Ok out ->
  exists all, summary_all raw diag nominal full e = Ok all /\ drop_last_rule raw ratio vmin vmax all = Ok out /\
    exists k, out = firstn k all.
Proof.
  unfold summarize_cycles. destruct (summary_all _ _ _ _ _) as [all|] eqn:E; cbn [bind]; [|discriminate].
  intro H. exists all. split; auto. split; auto. unfold drop_last_rule in H.
  destruct (length all =? 1)%nat; [injection H as <-; exists (length all); rewrite firstn_all; auto|].
  destruct (_ && _)%bool.
  - destruct (last_error all) as [s|]; [|discriminate]. destruct (ratio_gt _ _ _); injection H as <-.
    + exists (length all). rewrite firstn_all. auto.
    + rewrite removelast_firstn'. eauto.
  - injection H as <-. rewrite removelast_firstn'. eauto.
Qed.

Lemma nth_firstn {A} k (l : list A) i x : nth_error (firstn k l) i = Some x -> nth_error l i = Some x /\ (i < k)%nat.
Proof.
  revert l i. induction k as [|k IH]; intros [|y l] [|i]; simpl; try discriminate; auto.
  - intros H; split; auto. lia.
  - intro H. destruct (IH _ _ H). split; auto. lia.
Qed.

Lemma throughput_gen (f g : srow -> num) all k i s :
  map g all = cumsum (map f all) -> nth_error (firstn k all) i = Some s ->
  match f s with
  | Some _ => exists t, g s = Some t /\ t == total (map f (firstn (S i) (firstn k all)))
  | None => g s = None
  end.
Proof.
  intros E H. destruct (nth_firstn _ _ _ _ H) as [H1 H2].
  assert (N1 : nth_error (map f all) i = Some (f s)) by (rewrite nth_error_map, H1; auto).
  assert (N2 : nth_error (map g all) i = Some (g s)) by (rewrite nth_error_map, H1; auto).
  pose proof (cumsum_from_nth (map f all) 0 i _ N1) as C. unfold cumsum in E. rewrite <- E in C. rewrite N2 in C.
  destruct (f s).
  - destruct C as (t & C1 & C2). injection C1 as ->. exists t. split; auto.
    rewrite firstn_firstn, Nat.min_l by lia. rewrite <- firstn_map. rewrite C2, Qplus_0_l. reflexivity.
  - congruence.
Qed.

Definition throughput_ok (f g : srow -> num) (out : list srow) : Prop :=
  forall i s, nth_error out i = Some s ->
    match f s with
    | Some _ => exists t, g s = Some t /\ t == total (map f (firstn (S i) out))
    | None => g s = None
    end.
Lemma throughputs raw diag nominal full ratio vmin vmax e out :
  summarize_cycles raw diag nominal full ratio vmin vmax e = Ok out ->
  throughput_ok s_chg s_chg_thr out /\ throughput_ok s_chg_en s_en_thr out.
Proof.
  intro H. apply summarize_inv in H as (all & A & _ & k & ->). apply summary_all_inv in A as (_ & E1 & E2 & _).
  split; intros i s Hs; eapply throughput_gen; eauto.
Qed.

Lemma total_app a b : total (a ++ b) == total a + total b.
Proof.
  unfold total. induction a as [|[x|] a IH]; simpl; [ring| |auto]. rewrite IH. ring.
Qed.
Lemma total_nonneg l : (forall q, In (Some q) l -> 0 <= q) -> 0 <= total l.
Proof.
  unfold total. induction l as [|[x|] l IH]; simpl; intro H; [lra| |].
  - assert (0 <= x) by (apply H; auto). assert (0 <= fold_right (fun x t => match x with Some v => v + t | None => t end) 0 l) by (apply IH; intros; apply H; auto). lra.
  - apply IH. intros; apply H; auto.
Qed.
Lemma throughput_mono f g out : throughput_ok f g out ->
  (forall s q, In s out -> f s = Some q -> 0 <= q) ->
  forall i j si sj ti tj, (i <= j)%nat -> nth_error out i = Some si -> nth_error out j = Some sj ->
  g si = Some ti -> g sj = Some tj -> ti <= tj.
Proof.
  intros T P i j si sj ti tj L Hi Hj Gi Gj.
  pose proof (T _ _ Hi) as Ti. pose proof (T _ _ Hj) as Tj.
  destruct (f si); [|congruence]. destruct (f sj); [|congruence].
  destruct Ti as (t & E & EQ). rewrite Gi in E. injection E as <-.
  destruct Tj as (t & E & EQ'). rewrite Gj in E. injection E as <-. rewrite EQ, EQ'.
  assert (SP : firstn (S j) out = firstn (S i) out ++ firstn (j - i) (skipn (S i) out)).
  { replace (S j) with (S i + (j - i))%nat by lia. rewrite <- (firstn_skipn (S i) out) at 1.
    rewrite firstn_app, firstn_firstn. rewrite Nat.min_r by lia.
    f_equal. f_equal. rewrite firstn_length. assert (i < length out)%nat by (apply nth_error_Some; congruence). lia. }
  rewrite SP, map_app, total_app.
  assert (0 <= total (map f (firstn (j - i) (skipn (S i) out)))).
  { apply total_nonneg. intros q9 Hq. apply in_map_iff in Hq as (s & E & Hs). eapply P; eauto.
    assert (In s (skipn (S i) out)).
    { rewrite <- (firstn_skipn (j - i) (skipn (S i) out)). apply in_or_app; auto. }
    rewrite <- (firstn_skipn (S i) out). apply in_or_app; auto. }
  lra.
Qed.

(** ** cycles of the summary *)
Lemma cycles_of_in raw c : In c (cycles_of raw) <-> exists r, In r raw /\ cycle_index r = c.
Proof.
  unfold cycles_of. rewrite sort_z_in, uniq_in, in_map_iff. firstorder.
Qed.
Lemma cycles_of_sorted raw : StronglySorted Z.lt (cycles_of raw).
Proof. apply sort_z_strict, uniq_nodup. Qed.
Lemma summary_cycles_spec raw diag : regular_cycles raw diag (summary_cycles raw diag).
Proof.
  unfold regular_cycles, summary_cycles. fold (reg_rows raw diag). split.
  - apply SS_filter. apply cycles_of_sorted.
  - intro c. rewrite filter_In, mem_z_iff, reg_cycles_in, cycles_of_in. firstorder.
Qed.

Lemma max_z_in l : l <> [] -> In (max_z l) l /\ forall x, In x l -> (x <= max_z l)%Z.
Proof.
  destruct l as [|a l]; [congruence|]. intros _. simpl.
  assert (G : forall l a, (In (fold_left Z.max l a) l \/ fold_left Z.max l a = a) /\ (a <= fold_left Z.max l a)%Z /\
     forall x, In x l -> (x <= fold_left Z.max l a)%Z).
  { clear. induction l as [|b l IH]; intro a; simpl; [repeat split; auto; [lia|intros ? []]|].
    destruct (IH (Z.max a b)) as ([H|H] & H1 & H2).
    - repeat split; auto; [lia|]. intros x [<-|Hx]; [lia|auto].
    - repeat split; [|lia|intros x [<-|Hx]; [lia|auto]].
      rewrite H. destruct (Z.max_spec a b) as [[_ ->]|[_ ->]]; auto. }
  destruct (G l a) as (H & H1 & H2). split; [destruct H as [H|H]; auto|].
  intros x [<-|Hx]; auto.
Qed.

Lemma nlt_min l b : nlt (col_min l) b = true <-> exists v, In (Some v) l /\ v < b.
Proof.
  pose proof (col_min_spec l) as H. unfold nlt. destruct (col_min l) as [m|].
  - rewrite Qlt_bool_iff. split; [intro; exists m; tauto|]. intros (v & K & L). destruct H as [_ H]. specialize (H _ K). lra.
  - split; [discriminate|]. intros (v & K & _). destruct (H _ K).
Qed.
Lemma ngt_max l b : ngt (col_max l) b = true <-> exists v, In (Some v) l /\ b < v.
Proof.
  pose proof (col_max_spec l) as H. unfold ngt. destruct (col_max l) as [m|].
  - rewrite Qlt_bool_iff. split; [intro; exists m; tauto|]. intros (v & K & L). destruct H as [_ H]. specialize (H _ K). lra.
  - split; [discriminate|]. intros (v & K & _). destruct (H _ K).
Qed.
Lemma in_voltages raw c v : In (Some v) (map voltage (cycle_rows raw c)) <->
  exists r, In r raw /\ cycle_index r = c /\ voltage r = Some v.
Proof.
  rewrite in_map_iff. unfold cycle_rows. split.
  - intros (r & E & H). apply filter_In in H as [H K]. apply Z.eqb_eq in K. eauto.
  - intros (r & H & K & E). exists r. split; auto. apply filter_In. split; auto. apply Z.eqb_eq; auto.
Qed.

Lemma spans_iff raw vmin vmax : 
  (nlt (col_min (map voltage (cycle_rows raw (max_z (map cycle_index raw))))) vmin &&
   ngt (col_max (map voltage (cycle_rows raw (max_z (map cycle_index raw))))) vmax)%bool = true <->
  exists c, highest_cycle raw c /\ spans raw c vmin vmax.
Proof.
  rewrite andb_true_iff, nlt_min, ngt_max. unfold spans, highest_cycle.
  split.
  - intros [(v & H & L) (w & K & M)]. apply in_voltages in H as (r & H1 & H2 & H3). apply in_voltages in K as (s & K1 & K2 & K3).
    exists (max_z (map cycle_index raw)).
    assert (NE : map cycle_index raw <> []) by (destruct raw; [destruct H1|discriminate]).
    destruct (max_z_in _ NE) as [M1 M2]. split; [split; eauto|].
    + intros x Hx. apply M2. apply in_map; auto.
    + split; [exists r, v; auto|exists s, w; auto].
  - intros (c & [(r0 & R1 & R2) HM] & (r & v & H1 & H2 & H3 & L) & (s & w & K1 & K2 & K3 & M)).
    assert (NE : map cycle_index raw <> []) by (destruct raw; [destruct R1|discriminate]).
    destruct (max_z_in _ NE) as [M1 M2].
    assert (E : max_z (map cycle_index raw) = c).
    { apply in_map_iff in M1 as (r1 & E1 & I1). specialize (HM _ I1). rewrite E1 in HM.
      assert (c <= max_z (map cycle_index raw))%Z by (apply M2; rewrite <- R2; apply in_map; auto). lia. }
    rewrite E. split; [exists v; split; auto; apply in_voltages; eauto|exists w; split; auto; apply in_voltages; eauto].
Qed.

Lemma last_error_map {A B} (f : A -> B) l : last_error (map f l) = option_map f (last_error l).
Proof. induction l as [|x [|y l] IH]; auto. Qed.
Lemma last_error_in {A} (l : list A) x : last_error l = Some x -> In x l.
Proof. induction l as [|y [|z l] IH]; intro H; [discriminate|injection H as ->; left; auto|right; apply IH; exact H]. Qed.
Lemma map_removelast {A B} (f : A -> B) l : map f (removelast l) = removelast (map f l).
Proof. induction l as [|x [|y l] IH]; auto. change (f x :: map f (removelast (y :: l)) = f x :: removelast (map f (y :: l))). congruence. Qed.

Lemma row_ok_fields raw e d s : row_ok raw e d s ->
  reports_max (map discharge_capacity (of_cycle raw (s_cycle s))) (s_dis s) /\
  reports_max (map charge_capacity (of_cycle raw (s_cycle s))) (s_chg s).
Proof.
  unfold row_ok, summary_row. destruct (cv_default _); cbn [bind]; [|discriminate]. intro H. injection H as H.
  rewrite <- H. simpl. split; apply col_max_reports.
Qed.
Lemma reports_max_det l x m : reports_max l x -> is_max l m -> exists m', x = Some m' /\ m' == m.
Proof.
  unfold reports_max, is_max. destruct x as [m'|]; intros H [K1 K2]; [|destruct (H _ K1)].
  exists m'. split; auto. destruct H as [H1 H2]. specialize (H2 _ K1). specialize (K2 _ H1). lra.
Qed.
Lemma ratio_gt_iff raw e d s ratio : row_ok raw e d s ->
  ratio_gt (s_dis s) ratio (s_chg s) = true <-> discharged raw (s_cycle s) ratio.
Proof.
  intro R. apply row_ok_fields in R as [R1 R2]. unfold discharged. split.
  - unfold ratio_gt. destruct (s_dis s) as [x|], (s_chg s) as [y|]; try discriminate. rewrite Qlt_bool_iff.
    intro L. exists x, y. auto.
  - intros (x & y & H1 & H2 & L). destruct (reports_max_det _ _ _ R1 H1) as (x' & -> & EX).
    destruct (reports_max_det _ _ _ R2 H2) as (y' & -> & EY). simpl. apply Qlt_bool_iff. rewrite EX, EY. auto.
Qed.

Lemma last_rule raw diag nominal full ratio vmin vmax e out :
  summarize_cycles raw diag nominal full ratio vmin vmax e = Ok out ->
  exists cs, regular_cycles raw diag cs /\
    (length cs = 1%nat \/ complete_end raw cs ratio vmin vmax -> map s_cycle out = cs) /\
    (length cs <> 1%nat -> ~ complete_end raw cs ratio vmin vmax -> map s_cycle out = removelast cs).
Proof.
  intro H. apply summarize_inv in H as (all & A & D & _). apply summary_all_inv in A as (E & _ & _ & R).
  exists (map s_cycle all). split; [rewrite E; apply summary_cycles_spec|]. rewrite map_length.
  unfold drop_last_rule in D.
  destruct (length all =? 1)%nat eqn:L.
  { apply Nat.eqb_eq in L. injection D as <-. split; auto. intros N; lia. }
  apply Nat.eqb_neq in L.
  assert (SP := spans_iff raw vmin vmax). cbv zeta in D. 
  destruct (nlt _ vmin && ngt _ vmax)%bool eqn:S.
  - destruct (last_error all) as [s|] eqn:LE; [|discriminate].
    assert (RS : row_ok raw e (charge_durations raw nominal full) s).
    { rewrite Forall_forall in R. apply R. apply last_error_in; auto. }
    pose proof (ratio_gt_iff _ _ _ _ ratio RS) as RI.
    assert (CE : complete_end raw (map s_cycle all) ratio vmin vmax <-> discharged raw (s_cycle s) ratio).
    { unfold complete_end. rewrite last_error_map, LE. simpl. split.
      - intros [_ (c & EC & DC)]. injection EC as <-. auto.
      - intro DC. split; [apply SP; auto|eauto]. }
    destruct (ratio_gt _ _ _).
    + injection D as <-. split; auto. intros _ N. exfalso. apply N, CE, RI. auto.
    + injection D as <-. split; [|intros; apply map_removelast].
      intros [K|K]; [lia|]. apply CE, RI in K. discriminate.
  - injection D as <-. split; [|intros; apply map_removelast].
    intros [K|[K _]]; [lia|]. apply SP in K. discriminate.
Qed.

(** ** own-cycle values *)
Definition own_values (raw : list row) (e : Q) (s : srow) : Prop :=
  let rows := of_cycle raw (s_cycle s) in
  reports_max (map discharge_capacity rows) (s_dis s) /\
  reports_max (map charge_capacity rows) (s_chg s) /\
  reports_max (map temperature rows) (s_tmax s) /\
  reports_min (map temperature rows) (s_tmin s) /\
  (forall q, s_dis_en s = Some q -> is_max (map discharge_energy rows) q /\ Qabs q <= e) /\
  (forall q, s_chg_en s = Some q -> is_max (map charge_energy rows) q /\ Qabs q <= e) /\
  (forall q, s_eff s = Some q -> exists d c, is_max (map discharge_energy rows) d /\
      is_max (map charge_energy rows) c /\ ~ c == 0 /\ q == d / c) /\
  (forall t, s_date s = Some t <-> first_stamp rows t) /\
  paused_spec (map date_time rows) 3600 (s_paused s).

Lemma first_valid_stamp rows t : first_valid (map date_time rows) = Some t <-> first_stamp rows t.
Proof.
  unfold first_stamp. induction rows as [|r rows IH]; simpl.
  - split; [discriminate|]. intros (pre & r & post & E & _). destruct pre; discriminate.
  - destruct (date_time r) as [u|] eqn:D.
    + split.
      * intro H. injection H as ->. exists [], r, rows. auto.
      * intros (pre & r' & post & E & D' & F). destruct pre as [|p pre]; simpl in E; injection E as -> ->; [congruence|].
        inversion F; subst. congruence.
    + rewrite IH. split.
      * intros (pre & r' & post & -> & D' & F). exists (r :: pre), r', post. auto.
      * intros (pre & r' & post & E & D' & F). destruct pre as [|p pre]; simpl in E; injection E as -> ->; [congruence|].
        inversion F; subst. exists pre, r', post. auto.
Qed.

(** *** paused time *)
Lemma diff_from_in l : forall p d, In (Some d) (diff_from p l) <->
  exists i a b, nth_error (p :: l) i = Some (Some a) /\ nth_error l i = Some (Some b) /\ d = b - a.
Proof.
  induction l as [|x l IH]; intros p d; simpl.
  - split; [tauto|]. intros ([|i] & a & b & _ & H & _); discriminate.
  - rewrite IH. split.
    + intros [H|(i & a & b & H1 & H2 & H3)].
      * unfold nsub in H. destruct x as [x|], p as [p|]; try discriminate. injection H as <-. exists 0%nat, p, x. auto.
      * exists (S i), a, b. auto.
    + intros ([|i] & a & b & H1 & H2 & H3).
      * left. simpl in H1, H2. injection H1 as ->. injection H2 as ->. subst d. reflexivity.
      * right. exists i, a, b. auto.
Qed.
Lemma diff_gap1 times d : In (Some d) (diff (map (option_map inject_Z) times)) -> exists g, gap times g /\ d == inject_Z g.
Proof.
  unfold gap. destruct times as [|p l]; simpl; [tauto|]. intros [H|H]; [discriminate|].
  apply diff_from_in in H as (i & a & b & H1 & H2 & ->).
  change (option_map inject_Z p :: map (option_map inject_Z) l) with (map (option_map inject_Z) (p :: l)) in H1.
  rewrite nth_error_map in H1, H2.
  destruct (nth_error (p :: l) i) as [[a'|]|] eqn:A; try discriminate. destruct (nth_error l i) as [[b'|]|] eqn:B; try discriminate.
  simpl in H1, H2. injection H1 as <-. injection H2 as <-. exists (b' - a')%Z. split; [exists i, a', b'; auto|].
  unfold Qeq, Qminus, Qplus, Qopp, inject_Z. simpl. lia.
Qed.
Lemma diff_gap2 times g : gap times g -> exists d, In (Some d) (diff (map (option_map inject_Z) times)) /\ d == inject_Z g.
Proof.
  unfold gap. intros (i & a & b & H1 & H2 & ->). destruct times as [|p l]; [destruct i; discriminate|].
  exists (inject_Z b - inject_Z a). split.
  - right. apply diff_from_in. exists i, (inject_Z a), (inject_Z b).
    change (option_map inject_Z p :: map (option_map inject_Z) l) with (map (option_map inject_Z) (p :: l)).
    rewrite !nth_error_map. simpl in H2. rewrite H1, H2. auto.
  - unfold Qeq, Qminus, Qplus, Qopp, inject_Z. simpl. lia.
Qed.
Lemma max_paused_spec times thr : paused_spec times thr (max_paused times thr).
Proof.
  unfold paused_spec, max_paused. pose proof (col_max_spec (diff (map (option_map inject_Z) times))) as H.
  destruct (col_max _) as [m|].
  - destruct H as [H1 H2]. destruct (diff_gap1 _ _ H1) as (g & G & E).
    assert (UB : forall h, gap times h -> inject_Z h <= m).
    { intros h Hh. destruct (diff_gap2 _ _ Hh) as (d & D & ED). specialize (H2 _ D). rewrite <- ED. auto. }
    destruct (Qlt_bool thr m) eqn:L.
    + apply Qlt_bool_iff in L. left. exists g. repeat split; auto; [rewrite <- E; auto|].
      intros h Hh. specialize (UB _ Hh). rewrite E in UB. rewrite <- Zle_Qle in UB. auto.
    + apply Qlt_bool_false in L. right. split; [|reflexivity]. intros h Hh. specialize (UB _ Hh). lra.
  - right. split; [|reflexivity]. intros h Hh. destruct (diff_gap2 _ _ Hh) as (d & D & _). destruct (H _ D).
Qed.

Lemma clean_inv e x q : clean e x = Some q -> x = Some q /\ Qabs q <= e.
Proof.
  unfold clean. destruct x as [v|]; [|discriminate]. destruct (Qlt_bool e (Qabs v)) eqn:L; [discriminate|].
  intro H. injection H as ->. split; auto. apply Qlt_bool_false; auto.
Qed.
Lemma col_max_is l m : col_max l = Some m -> is_max l m.
Proof. intro E. pose proof (col_max_reports l) as H. rewrite E in H. auto. Qed.

Lemma row_ok_own raw e d s : row_ok raw e d s -> own_values raw e s.
Proof.
  unfold row_ok. generalize (s_chg_thr s) (s_en_thr s) (eq_refl (s_cycle s)). generalize (s_cycle s) at 1 3. intros c t1 t2 EC.
  unfold summary_row. destruct (cv_default _) as [cv|]; cbn [bind]; [|discriminate]. intro H. injection H as H.
  unfold own_values. rewrite <- EC. change cycle_rows with of_cycle in *.
  set (rows := of_cycle raw c) in *. clearbody rows. subst s. simpl. clear EC.
  split; [apply col_max_reports|]. split; [apply col_max_reports|]. split; [apply col_max_reports|].
  split; [apply col_min_reports|].
  split. { intros q E. apply clean_inv in E as [E L]. split; auto. apply col_max_is; auto. }
  split. { intros q E. apply clean_inv in E as [E L]. split; auto. apply col_max_is; auto. }
  split.
  { intros q E. unfold ndiv_finite in E. destruct (col_max (map discharge_energy rows)) as [x|] eqn:X; [|discriminate].
    destruct (col_max (map charge_energy rows)) as [y|] eqn:Y; [|discriminate].
    destruct (Qeq_bool y 0) eqn:Z; [discriminate|]. injection E as <-. exists x, y.
    split; [apply col_max_is; auto|]. split; [apply col_max_is; auto|]. split; [|reflexivity].
    intro K. apply Qeq_bool_iff in K. congruence. }
  split; [intro t; apply first_valid_stamp|]. apply max_paused_spec.
Qed.

Lemma summary_own raw diag nominal full ratio vmin vmax e out s :
  summarize_cycles raw diag nominal full ratio vmin vmax e = Ok out -> In s out -> own_values raw e s.
Proof.
  intros H Hs. apply summarize_inv in H as (all & A & _ & k & ->). apply summary_all_inv in A as (_ & _ & _ & R).
  rewrite Forall_forall in R. eapply row_ok_own. apply R. rewrite <- (firstn_skipn k all). apply in_or_app; auto.
Qed.

(** *** charge duration *)
Definition own_duration (raw : list row) (cap : Q) (c : Z) : option Z :=
  match first_valid (map date_time (filter (fun r => nge (charge_capacity r) (Some cap)) (cycle_rows raw c))),
        first_valid (map date_time (cycle_rows raw c)) with
  | Some f, Some s => Some (f - s)%Z | _, _ => None end.
Lemma own_duration_spec raw cap c d : own_duration raw cap c = Some d <-> duration_of (of_cycle raw c) cap d.
Proof.
  unfold own_duration, duration_of. change cycle_rows with of_cycle.
  assert (EF : filter (fun r => nge (charge_capacity r) (Some cap)) (of_cycle raw c) = filter (reached cap) (of_cycle raw c)).
  { apply filter_ext_in'. intros r _. unfold nge, reached. destruct (charge_capacity r); auto. }
  rewrite EF. split.
  - destruct (first_valid (map date_time (filter _ _))) as [f|] eqn:F; [|discriminate].
    destruct (first_valid (map date_time (of_cycle raw c))) as [s|] eqn:S; [|discriminate].
    intro H. injection H as <-. apply first_valid_stamp in F, S. exists s, f. auto.
  - intros (s & f & S & F & ->). apply first_valid_stamp in S, F. rewrite S, F. auto.
Qed.
Lemma durations_nth raw nominal full k c : nth_error (cycles_of raw) k = Some c ->
  nth_error (charge_durations raw nominal full) k = Some (own_duration raw (nominal * full) c).
Proof. intro H. unfold charge_durations. rewrite nth_error_map, H. reflexivity. Qed.

Lemma SS_Zlt_ext : forall l1 l2, StronglySorted Z.lt l1 -> StronglySorted Z.lt l2 ->
  (forall c, In c l1 <-> In c l2) -> l1 = l2.
Proof.
  induction l1 as [|x l1 IH]; intros [|y l2] S1 S2 H; auto.
  - exfalso. apply (H y). left; auto.
  - exfalso. apply (H x). left; auto.
  - inversion S1; inversion S2; subst. rewrite Forall_forall in *.
    assert (x = y).
    { destruct (proj1 (H x) (or_introl eq_refl)) as [E|E]; auto. destruct (proj2 (H y) (or_introl eq_refl)) as [E'|E']; auto.
      specialize (H3 _ E'). specialize (H7 _ E). lia. }
    subst y. f_equal. apply IH; auto. intro c. split; intro K.
    + destruct (proj1 (H c) (or_intror K)) as [E|E]; auto. subst c. specialize (H3 _ K). lia.
    + destruct (proj2 (H c) (or_intror K)) as [E|E]; auto. subst c. specialize (H7 _ K). lia.
Qed.
Lemma seq_Z_sorted n : forall s, StronglySorted Z.lt (map Z.of_nat (seq s n)).
Proof.
  induction n as [|n IH]; intro s; simpl; constructor; auto. apply Forall_forall. intros x Hx.
  apply in_map_iff in Hx as (k & <- & Hk). apply in_seq in Hk. lia.
Qed.
Lemma contiguous_cycles raw n : (forall c, (exists r, In r raw /\ cycle_index r = c) <-> (0 <= c < Z.of_nat n)%Z) ->
  cycles_of raw = map Z.of_nat (seq 0 n).
Proof.
  intro H. apply SS_Zlt_ext; [apply cycles_of_sorted|apply seq_Z_sorted|]. intro c.
  rewrite cycles_of_in, H, in_map_iff. split.
  - intro K. exists (Z.to_nat c). split; [lia|]. apply in_seq. lia.
  - intros (k & <- & K). apply in_seq in K. lia.
Qed.
Lemma row_ok_duration raw e d s : row_ok raw e d s -> s_duration s = aligned d (s_cycle s).
Proof.
  unfold row_ok, summary_row. destruct (cv_default _); cbn [bind]; [|discriminate]. intro H. injection H as H.
  rewrite <- H at 1. reflexivity.
Qed.
(** What the code does in general: the row labelled [c] receives the duration of
    the [c]-th cycle of the file. *)
Lemma duration_positional raw diag nominal full ratio vmin vmax e out s :
  summarize_cycles raw diag nominal full ratio vmin vmax e = Ok out -> In s out ->
  s_duration s = aligned (map (own_duration raw (nominal * full)) (cycles_of raw)) (s_cycle s).
Proof.
  intros H Hs. apply summarize_inv in H as (all & A & _ & k & ->). apply summary_all_inv in A as (_ & _ & _ & R).
  rewrite Forall_forall in R.
  assert (K : In s all) by (rewrite <- (firstn_skipn k all); apply in_or_app; auto).
  apply R in K. apply row_ok_duration in K. rewrite K. reflexivity.
Qed.
Lemma duration_contiguous raw diag nominal full ratio vmin vmax e out s n :
  (forall c, (exists r, In r raw /\ cycle_index r = c) <-> (0 <= c < Z.of_nat n)%Z) ->
  summarize_cycles raw diag nominal full ratio vmin vmax e = Ok out -> In s out ->
  forall d, s_duration s = Some d <-> duration_of (of_cycle raw (s_cycle s)) (nominal * full) d.
Proof.
  intros C H Hs d. rewrite (duration_positional _ _ _ _ _ _ _ _ _ _ H Hs).
  rewrite (contiguous_cycles _ _ C).
  assert (IN : (0 <= s_cycle s < Z.of_nat n)%Z).
  { apply C. apply summarize_inv in H as (all & A & _ & k & ->). apply summary_all_inv in A as (E & _).
    assert (K : In s all) by (rewrite <- (firstn_skipn k all); apply in_or_app; auto).
    apply (in_map s_cycle) in K. rewrite E in K. apply summary_cycles_spec in K. tauto. }
  unfold aligned. replace (0 <=? s_cycle s)%Z with true by (symmetry; apply Z.leb_le; lia).
  rewrite !nth_error_map, (nth_error_nth' _ 0%nat), seq_nth by (rewrite ?seq_length; lia).
  cbn [option_map]. rewrite Nat.add_0_l, Z2Nat.id by lia. rewrite <- own_duration_spec.
  destruct (own_duration _ _ _); split; congruence.
Qed.

Lemma paused_intervals_spec raw c p : In (c, p) (paused_intervals raw) ->
  (exists r, In r raw /\ cycle_index r = c) /\ paused_spec (map date_time (of_cycle raw c)) 3600 p.
Proof.
  unfold paused_intervals. intro H. apply in_map_iff in H as (c' & E & H). injection E as -> <-.
  split; [apply cycles_of_in; auto|apply max_paused_spec].
Qed.
Lemma paused_intervals_all raw r : In r raw -> exists p, In (cycle_index r, p) (paused_intervals raw).
Proof.
  intro H. eexists. unfold paused_intervals. apply in_map_iff. exists (cycle_index r). split; [reflexivity|].
  apply cycles_of_in. eauto.
Qed.
Lemma paused_intervals_correct raw : (forall r, In r raw -> exists p, In (cycle_index r, p) (paused_intervals raw)) /\
  forall c p, In (c, p) (paused_intervals raw) ->
    (exists r, In r raw /\ cycle_index r = c) /\ paused_spec (map date_time (of_cycle raw c)) 3600 p.
Proof. split; [apply paused_intervals_all|apply paused_intervals_spec]. Qed.
Lemma throughputs_mono raw diag nominal full ratio vmin vmax e out :
  summarize_cycles raw diag nominal full ratio vmin vmax e = Ok out ->
  forall i j si sj ti tj, (i <= j)%nat -> nth_error out i = Some si -> nth_error out j = Some sj ->
  ((forall s q, In s out -> s_chg s = Some q -> 0 <= q) ->
     s_chg_thr si = Some ti -> s_chg_thr sj = Some tj -> ti <= tj) /\
  ((forall s q, In s out -> s_chg_en s = Some q -> 0 <= q) ->
     s_en_thr si = Some ti -> s_en_thr sj = Some tj -> ti <= tj).
Proof.
  intros H i j si sj ti tj L Hi Hj. apply throughputs in H as [T1 T2].
  split; intros P G1 G2; [exact (throughput_mono _ _ _ T1 P i j si sj ti tj L Hi Hj G1 G2)|exact (throughput_mono _ _ _ T2 P i j si sj ti tj L Hi Hj G1 G2)].
Qed.

(** *** C55, the remaining columns *)
Lemma first_valid_split {A} (l : list (option A)) x : first_valid l = Some x <->
  exists pre post, l = pre ++ Some x :: post /\ Forall (fun v => v = None) pre.
Proof.
  induction l as [|[y|] l IH]; simpl.
  - split; [discriminate|]. intros (pre & post & E & _). destruct pre; discriminate.
  - split.
    + intro H. injection H as ->. exists [], l. auto.
    + intros (pre & post & E & F). destruct pre as [|p pre]; simpl in E; injection E as E1 E2; [subst; reflexivity|]. subst p. inversion F as [|? ? K _]. discriminate K.
  - rewrite IH. split.
    + intros (pre & post & -> & F). exists (None :: pre), post. auto.
    + intros (pre & post & E & F). destruct pre as [|p pre]; [discriminate E|]; simpl in E; injection E as E1 E2; subst.
      inversion F; subst. exists pre, post. auto.
Qed.
Lemma last_valid_known f rows q : last_valid (map f rows) = Some q <-> last_known f rows q.
Proof.
  unfold last_valid, last_known. rewrite first_valid_split. split.
  - intros (pre & post & E & F). apply (f_equal (@rev _)) in E. rewrite rev_involutive, rev_app_distr in E. simpl in E. rewrite <- app_assoc in E. simpl in E.
    destruct (map_eq_app _ _ _ _ E) as (l1 & l2 & -> & E1 & E2). destruct l2 as [|r l2]; [discriminate|]. simpl in E2. injection E2 as E2 E3.
    exists l1, r, l2. split; [reflexivity|]. split; [exact E2|]. apply Forall_forall. intros x I. rewrite Forall_forall in F. apply F. apply in_rev. rewrite <- E3. apply in_map. exact I.
  - intros (pre & r & post & -> & E & F). exists (rev (map f post)), (rev (map f pre)). split.
    + rewrite map_app, rev_app_distr. simpl. rewrite E, <- app_assoc. reflexivity.
    + apply Forall_forall. intros x I. apply in_rev in I. apply in_map_iff in I as (y & <- & I). rewrite Forall_forall in F. auto.
Qed.
Lemma total_dropna l : qsum (dropna l) = total l.
Proof. induction l as [|[x|] l IH]; simpl; congruence. Qed.
Lemma count_dropna l : length (filter (fun v : num => match v with Some _ => true | None => false end) l) = length (dropna l).
Proof. induction l as [|[x|] l IH]; simpl; congruence. Qed.
Lemma mean_reports l : reports_mean l (mean l).
Proof.
  unfold reports_mean, mean. rewrite count_dropna, <- total_dropna. destruct (dropna l) as [|x xs] eqn:E; [reflexivity|].
  split; [simpl; lia|]. field. unfold Qeq. simpl. lia.
Qed.
Lemma is_max_unique l a b : is_max l a -> is_max l b -> a == b.
Proof. intros [A1 A2] [B1 B2]. apply Qle_antisym; auto. Qed.
Lemma clean_reports l e : reports_energy l e (clean e (col_max l)).
Proof.
  unfold reports_energy, clean. pose proof (col_max_reports l) as R. destruct (col_max l) as [v|]; simpl in R.
  - destruct (Qlt_bool e (Qabs v)) eqn:L.
    + apply Qlt_bool_iff in L. intros m M. rewrite (is_max_unique _ _ _ M R). exact L.
    + apply Qlt_bool_false in L. auto.
  - intros m [M _]. destruct (R m M).
Qed.
Lemma trapz_none rows s : trapz (map (fun r => (minutes_since s r, temperature r)) rows) = None <->
  (2 <= length rows)%nat /\ exists r, In r rows /\ (minutes_since s r = None \/ temperature r = None).
Proof.
  induction rows as [|a rows IH]; simpl; [split; [discriminate|lia]|]. destruct rows as [|b rows]; [simpl; split; [discriminate|lia]|].
  cbn [map]. cbn [map] in IH. set (T := trapz _) in *. unfold nadd, trapezium.
  destruct (minutes_since s a) as [xa|] eqn:Xa; [|split; [intros _; split; [simpl; lia|exists a; auto]|reflexivity]].
  destruct (temperature a) as [ya|] eqn:Ya; [|split; [intros _; split; [simpl; lia|exists a; auto]|reflexivity]].
  destruct (minutes_since s b) as [xb|] eqn:Xb; [|split; [intros _; split; [simpl; lia|exists b; simpl; auto]|reflexivity]].
  destruct (temperature b) as [yb|] eqn:Yb; [|split; [intros _; split; [simpl; lia|exists b; simpl; auto]|reflexivity]].
  destruct T as [t|] eqn:ET.
  - split; [discriminate|]. intros (_ & r & [<-|I] & [N|N]); try congruence; exfalso;
      (destruct rows as [|c rows]; [simpl in I; destruct I as [<-|[]]; congruence|]);
      assert (K : Some t = None) by (apply IH; split; [simpl; lia|exists r; auto]); discriminate.
  - split; [|reflexivity]. intros _. destruct (proj1 IH eq_refl) as (L & r & I & N). split; [simpl in *; lia|]. exists r; auto.
Qed.
Lemma trapz_area rows s pts : map (fun r => match date_time r, temperature r with Some t, Some y => Some (t, y) | _, _ => None end) rows = map Some pts ->
  exists q, trapz (map (fun r => (minutes_since (Some s) r, temperature r)) rows) = Some q /\ 120 * q == area2 pts.
Proof.
  revert pts. induction rows as [|a rows IH]; intros pts E; destruct pts as [|[t0 y0] pts]; try discriminate; [exists 0; split; [reflexivity|simpl; ring]|].
  simpl in E. injection E as Ea E. destruct (IH pts E) as (q & Eq & A). destruct rows as [|b rows].
  - destruct pts; [|discriminate]. exists 0. split; [reflexivity|simpl; ring].
  - destruct pts as [|[t1 y1] pts]; [discriminate|]. simpl in E. injection E as Eb E.
    destruct (date_time a) as [ta|] eqn:Da; [|discriminate]. destruct (temperature a) as [ya|] eqn:Ta; [|discriminate]. injection Ea as -> ->.
    destruct (date_time b) as [tb|] eqn:Db; [|discriminate]. destruct (temperature b) as [yb|] eqn:Tb; [|discriminate]. injection Eb as -> ->.
    cbn [map] in *. cbn [trapz] in *. rewrite Eq. unfold minutes_since. rewrite Da, Db, Ta, Tb. cbn [trapezium nadd].
    eexists. split; [reflexivity|]. cbn [area2] in *. rewrite <- A.
    unfold Zminus. rewrite !inject_Z_plus, !inject_Z_opp. field.
Qed.
Definition own_values2 (raw : list row) (e : Q) (s : srow) : Prop :=
  let rows := of_cycle raw (s_cycle s) in
  (forall q, s_res s = Some q <-> last_known internal_resistance rows q) /\
  reports_mean (map temperature rows) (s_tavg s) /\
  reports_energy (map discharge_energy rows) e (s_dis_en s) /\
  reports_energy (map charge_energy rows) e (s_chg_en s) /\
  (s_eff s = None <-> forall d c, is_max (map discharge_energy rows) d -> is_max (map charge_energy rows) c -> c == 0) /\
  (s_tti s = None <-> (2 <= length rows)%nat /\ exists r, In r rows /\ (date_time r = None \/ temperature r = None)) /\
  (forall pts, map (fun r => match date_time r, temperature r with Some t, Some y => Some (t, y) | _, _ => None end) rows = map Some pts ->
     exists q, s_tti s = Some q /\ 120 * q == area2 pts).
Lemma minutes_none rows : forall r, In r rows -> (minutes_since (first_valid (map date_time rows)) r = None <-> date_time r = None).
Proof.
  intros r I. unfold minutes_since. destruct (date_time r) as [t|] eqn:D; [|tauto].
  destruct (first_valid (map date_time rows)) as [s|] eqn:F; [split; discriminate|]. exfalso.
  revert I F. induction rows as [|x rows IH]; [intros []|]. intros [->|I]; simpl; [rewrite D; discriminate|]. destruct (date_time x); [discriminate|auto].
Qed.
Lemma row_ok_own2 raw e d s : row_ok raw e d s -> own_values2 raw e s.
Proof.
  unfold row_ok. generalize (s_chg_thr s) (s_en_thr s) (eq_refl (s_cycle s)). generalize (s_cycle s) at 1 3. intros c t1 t2 EC.
  unfold summary_row. destruct (cv_default _) as [cv|]; cbn [bind]; [|discriminate]. intro H. injection H as H.
  unfold own_values2. rewrite <- EC. change cycle_rows with of_cycle in *.
  set (rows := of_cycle raw c) in *. clearbody rows. subst s. cbn [s_res s_tavg s_dis_en s_chg_en s_eff s_tti]. clear EC.
  split; [intro q; apply last_valid_known|]. split; [apply mean_reports|]. split; [apply clean_reports|]. split; [apply clean_reports|].
  split.
  { unfold ndiv_finite. pose proof (col_max_reports (map discharge_energy rows)) as D. pose proof (col_max_reports (map charge_energy rows)) as C.
    destruct (col_max (map discharge_energy rows)) as [x|]; simpl in D; [|split; [|reflexivity]; intros _ d0 c0 [I _]; destruct (D _ I)].
    destruct (col_max (map charge_energy rows)) as [y|]; simpl in C; [|split; [|reflexivity]; intros _ d0 c0 _ [I _]; destruct (C _ I)].
    destruct (Qeq_bool y 0) eqn:Z; split; try discriminate.
    - intros _ d0 c0 _ M. rewrite (is_max_unique _ _ _ M C). apply Qeq_bool_iff. exact Z.
    - reflexivity.
    - intro K. specialize (K _ _ D C). apply Qeq_bool_iff in K. congruence. }
  split.
  { unfold time_temperature. rewrite trapz_none. pose proof (minutes_none rows) as M. split; intros (L & r & I & [N|N]); (split; [exact L|exists r; split; [exact I|]]); auto; left; apply M; auto. }
  intros pts E. unfold time_temperature. destruct (first_valid (map date_time rows)) as [s|] eqn:F.
  - apply trapz_area. exact E.
  - destruct rows as [|r rows]; [destruct pts; [|discriminate]; exists 0; split; [reflexivity|simpl; ring]|].
    destruct pts as [|p pts]; [discriminate|]. simpl in E. injection E as E _. simpl in F. destruct (date_time r); [discriminate F|discriminate E].
Qed.
Lemma summary_own2 raw diag nominal full ratio vmin vmax e out s :
  summarize_cycles raw diag nominal full ratio vmin vmax e = Ok out -> In s out -> own_values2 raw e s.
Proof.
  intros H Hs. apply summarize_inv in H as (all & A & _ & k & ->). apply summary_all_inv in A as (_ & _ & _ & R).
  rewrite Forall_forall in R. eapply row_ok_own2. apply R. rewrite <- (firstn_skipn k all). apply in_or_app; auto.
Qed.

From Coq Require Import Sorted Permutation Psatz Lqa.
From Verif Require Import Py Num Model_Raw Model_Interp Spec_Interp Proofs_Interp Model_Diagnostic Proofs_Diagnostic Model_Structure Proofs_Structure Model_Summary Spec_Summary Proofs_Summary Model_DiagData Spec_DiagData.

(** ** Interpolation on any axis *)
Lemma drop_dup_spec l : StronglySorted le_x l -> forall seen,
  StronglySorted Qlt (map fst (drop_dup seen l)) /\
  (forall x, In x (map fst (drop_dup seen l)) -> has_key x seen = false /\ exists r, In r l /\ m_x r = x) /\
  (forall r, In r l -> has_key (m_x r) seen = false -> has_key (m_x r) (map fst (drop_dup seen l)) = true).
Proof.
  induction 1 as [|a l S IH F]; intro seen; cbn [drop_dup].
  - split; [constructor|]. split; [intros ? []|intros ? []].
  - destruct (has_key (m_x a) seen) eqn:HK.
    + destruct (IH seen) as (I1 & I2 & I3). split; [exact I1|]. split.
      * intros x X. destruct (I2 x X) as (? & r & ? & ?). split; [assumption|]. exists r. split; [right; assumption|assumption].
      * intros r [<-|I] K; [congruence|]. apply I3; assumption.
    + destruct (IH (m_x a :: seen)) as (I1 & I2 & I3). cbn [map fst]. split; [|split].
      * constructor; [exact I1|]. apply Forall_forall. intros x X. destruct (I2 x X) as (NK & r & I & <-).
        rewrite Forall_forall in F. specialize (F r I). unfold le_x in F. rewrite has_key_false in NK. specialize (NK (m_x a) (or_introl eq_refl)).
        apply Qle_lteq in F as [F|F]; [exact F|]. symmetry in F. contradiction.
      * intros x [<-|X]; [split; [exact HK|exists a; split; [left; reflexivity|reflexivity]]|].
        destruct (I2 x X) as (NK & r & I & E). split; [|exists r; split; [right; exact I|exact E]].
        rewrite has_key_false in *. intros y Y. apply NK. right. exact Y.
      * intros r [<-|I] K; [apply has_key_iff; exists (m_x a); split; [left; reflexivity|reflexivity]|].
        destruct (Qeq_bool (m_x r) (m_x a)) eqn:B.
        -- apply Qeq_bool_iff in B. apply has_key_iff. exists (m_x a). split; [left; reflexivity|exact B].
        -- specialize (I3 r I). assert (NK : has_key (m_x r) (m_x a :: seen) = false).
           { cbn. unfold has_key in K. rewrite K, orb_false_r. exact B. }
           specialize (I3 NK). apply has_key_iff in I3 as (y & Y & E). apply has_key_iff. exists y. split; [right; exact Y|exact E].
Qed.

Lemma merged_sorted samples grid : StronglySorted le_x (merged samples grid).
Proof. apply sort_sorted. Qed.
Lemma fill_sorted v l seen : StronglySorted le_x l -> StronglySorted le_x (fill v seen l).
Proof.
  intro S. assert (K : map m_x (fill v seen l) = map m_x l).
  { pose proof (f_equal (map fst) (fill_shape v l seen)) as K. rewrite !map_map in K. exact K. }
  revert K. generalize (fill v seen l). clear v seen. induction S as [|a l S IH F]; intros [|b l'] K; try discriminate; [constructor|].
  injection K as E K. constructor; [apply IH, K|]. apply Forall_forall. intros c C. unfold le_x. rewrite E.
  assert (I : In (m_x c) (map m_x l)) by (rewrite <- K; apply in_map, C). apply in_map_iff in I as (d & <- & D).
  rewrite Forall_forall in F. apply (F d D).
Qed.
Lemma any_grid samples a b n : a < b -> Forall2 Qeq (map fst (interp_rows samples a b n)) (linspace a b n).
Proof.
  intro L. unfold interp_rows. set (rows := merged samples (linspace a b n)).
  assert (S : StronglySorted le_x (filter m_grid (fill (valid rows) false rows))) by apply SS_filter, fill_sorted, merged_sorted.
  destruct (drop_dup_spec _ S []) as (D1 & D2 & D3).
  assert (KEY : forall x, (exists r, In r (filter m_grid (fill (valid rows) false rows)) /\ m_x r == x) <-> has_key x (linspace a b n) = true).
  { intro x. rewrite <- (rows_grid samples (linspace a b n) x). fold rows.
    pose proof (fill_shape (valid rows) rows false) as SH. split.
    - intros (r & I & E). apply filter_In in I as [I G]. assert (J : In (m_x r, m_grid r) (map (fun r => (m_x r, m_grid r)) rows)).
      { rewrite <- SH. apply in_map_iff. eauto. }
      apply in_map_iff in J as (r' & J & I'). injection J as E1 E2. exists r'. rewrite E1, E2. auto.
    - intros (r & I & E & G). assert (J : In (m_x r, m_grid r) (map (fun r => (m_x r, m_grid r)) (fill (valid rows) false rows))).
      { rewrite SH. apply in_map_iff. eauto. }
      apply in_map_iff in J as (r' & J & I'). injection J as E1 E2. exists r'. rewrite filter_In, E1, E2. auto. }
  apply sorted_same; [exact D1|apply linspace_asc, L|]. intro x. split.
  - intro K. apply KEY. apply has_key_iff in K as (y & Y & E). destruct (D2 y Y) as (_ & r & I & <-). exists r. split; [exact I|symmetry; exact E].
  - intro K. apply KEY in K as (r & I & E). specialize (D3 r I eq_refl). apply has_key_iff in D3 as (y & Y & E'). apply has_key_iff. exists y. split; [exact Y|rewrite <- E; exact E'].
Qed.

Lemma insert_shape r1 r2 : m_x r1 = m_x r2 -> m_grid r1 = m_grid r2 -> forall l1 l2, map (fun r => (m_x r, m_grid r)) l1 = map (fun r => (m_x r, m_grid r)) l2 ->
  map (fun r => (m_x r, m_grid r)) (insert r1 l1) = map (fun r => (m_x r, m_grid r)) (insert r2 l2).
Proof.
  intros EX EG. induction l1 as [|a l1 IH]; intros [|b l2] E; try discriminate; cbn; [rewrite EX, EG; reflexivity|].
  injection E as E1 E2 E. rewrite EX, E1. destruct (Qle_bool (m_x r2) (m_x b)); cbn.
  - rewrite EX, EG, E1, E2, E. reflexivity.
  - rewrite E1, E2, (IH l2 E). reflexivity.
Qed.
Lemma sort_shape : forall l1 l2, map (fun r => (m_x r, m_grid r)) l1 = map (fun r => (m_x r, m_grid r)) l2 ->
  map (fun r => (m_x r, m_grid r)) (sort_rows l1) = map (fun r => (m_x r, m_grid r)) (sort_rows l2).
Proof. induction l1 as [|a l1 IH]; intros [|b l2] E; try discriminate; cbn; [reflexivity|]. injection E as E1 E2 E. apply insert_shape; auto. Qed.
Lemma drop_dup_shape : forall l1 l2 seen, map m_x l1 = map m_x l2 -> map fst (drop_dup seen l1) = map fst (drop_dup seen l2).
Proof.
  induction l1 as [|a l1 IH]; intros [|b l2] seen E; try discriminate; cbn; [reflexivity|]. injection E as E1 E. rewrite E1.
  destruct (has_key (m_x b) seen); cbn; rewrite ?E1; rewrite (IH l2 _ E); reflexivity.
Qed.
Lemma same_axis s1 s2 a b n : map fst s1 = map fst s2 -> map fst (interp_rows s1 a b n) = map fst (interp_rows s2 a b n).
Proof.
  intro E. unfold interp_rows. apply drop_dup_shape.
  assert (SH : map (fun r => (m_x r, m_grid r)) (merged s1 (linspace a b n)) = map (fun r => (m_x r, m_grid r)) (merged s2 (linspace a b n))).
  { unfold merged. apply sort_shape. rewrite !map_app, !map_map. cbn [m_x m_grid]. rewrite E. f_equal.
    transitivity (map (fun x => (x, has_key x (linspace a b n))) (map fst s1)); [rewrite map_map; reflexivity|]. rewrite E, map_map. reflexivity. }
  assert (F : forall l, map m_x (filter m_grid l) = map fst (filter snd (map (fun r => (m_x r, m_grid r)) l))).
  { intro l. rewrite filter_map_gen, map_map. reflexivity. }
  rewrite !F, !fill_shape, SH. reflexivity.
Qed.

(** ** One group *)
Lemma nth_combine {A B} : forall (l : list A) (m : list B) i, nth_error (combine l m) i =
  match nth_error l i, nth_error m i with Some a, Some b => Some (a, b) | _, _ => None end.
Proof.
  induction l as [|a l IH]; intros [|b m] [|i]; cbn; try reflexivity.
  - destruct (nth_error l i); reflexivity.
  - apply IH.
Qed.
Lemma nth_map_inv {A B} (f : A -> B) l i y : nth_error (map f l) i = Some y -> exists x, nth_error l i = Some x /\ f x = y.
Proof. revert i. induction l as [|a l IH]; intros [|i] E; try discriminate; cbn in *; [injection E as <-; eauto|apply IH, E]. Qed.
Lemma slopes_length l : forall prev, length (slopes prev l) = length l.
Proof. induction l as [|[v y] l IH]; intro prev; cbn; [reflexivity|]. rewrite IH. reflexivity. Qed.
Lemma slopes_next l : forall prev i a b, nth_error l i = Some a -> nth_error l (S i) = Some b ->
  nth_error (slopes prev l) (S i) = Some (ndiv_finite (nsub (snd b) (snd a)) (nsub (fst b) (fst a))).
Proof.
  induction l as [|[v y] l IH]; intros prev i a b A B; [destruct i; discriminate|]. destruct i as [|i].
  - cbn in A, B. injection A as <-. destruct l as [|[v' y'] l]; [discriminate|]. injection B as <-. reflexivity.
  - cbn [slopes nth_error] in *. apply (IH (Some (v, y)) i a b A B).
Qed.
Lemma axis_samples_inv ax f rows smp : axis_samples ax f rows = Ok smp -> measured (axis_val ax) f rows smp.
Proof.
  unfold axis_samples, measured. intro E. apply mapM_ok in E. eapply F2_impl; [|exact E]. intros r s H. cbn in H.
  destruct (axis_val ax r) as [x|]; [|discriminate]. injection H as <-. split; reflexivity.
Qed.
Lemma measured_fst axis f g rows s1 s2 : measured axis f rows s1 -> measured axis g rows s2 -> map fst s1 = map fst s2.
Proof.
  intro M. revert s2. induction M as [|r s rows s1 [A _] M IH]; intros s2 M2; inversion M2 as [|? t ? ? [B _] M2']; subst; [reflexivity|].
  cbn. rewrite (IH _ M2'). congruence.
Qed.

Lemma group_inv cfg tres vres dvm fb col raw g block :
  interpolate_group cfg tres vres dvm fb col raw g = Ok block ->
  exists ax a b type st S Sq Sd St Sv rows,
    diag_axis (mem_z (u_cycle g) (g_hppc cfg)) dvm fb (u_rows g) = (ax, (Some a, Some b)) /\
    d_get Z.eqb (g_by_ix cfg) (u_cycle g) = Some type /\
    index_z (u_step g) (uniq (map step_index (cycle_rows raw (u_cycle g)))) 0 = Ok st /\
    measured (axis_val ax) col (u_rows g) S /\ measured (axis_val ax) charge_capacity (u_rows g) Sq /\
    measured (axis_val ax) discharge_capacity (u_rows g) Sd /\ measured (axis_val ax) test_time (u_rows g) St /\
    measured (axis_val ax) voltage (u_rows g) Sv /\
    let n := match ax with AxTime => tres | _ => vres end in
    block = (if (length rows <? 2)%nat then [] else rows) /\
    map k_x rows = map fst (interp_rows S a b n) /\
    (forall i r, nth_error rows i = Some r ->
       nth_error (interp_rows S a b n) i = Some (k_x r, k_y r) /\
       nth_error (interp_rows Sq a b n) i = Some (k_x r, k_q r) /\
       nth_error (interp_rows Sd a b n) i = Some (k_x r, k_d r) /\
       match ax with
       | AxTime => k_time r = Some (k_x r) /\ nth_error (interp_rows Sv a b n) i = Some (k_x r, k_voltage r)
       | _ => k_voltage r = Some (k_x r) /\ nth_error (interp_rows St a b n) i = Some (k_x r, k_time r)
       end /\
       k_cycle r = u_cycle g /\ k_type r = type /\ k_step r = u_step g /\ k_counter r = u_counter g /\ k_steptype r = st /\
       k_on_time r = match ax with AxTime => true | _ => false end /\
       forall r', nth_error rows (Datatypes.S i) = Some r' ->
         k_ddq r' = ndiv_finite (nsub (k_d r') (k_d r)) (nsub (k_voltage r') (k_voltage r)) /\
         k_cdq r' = ndiv_finite (nsub (k_q r') (k_q r)) (nsub (k_voltage r') (k_voltage r))).
Proof.
  unfold interpolate_group. destruct (diag_axis _ _ _ _) as [ax [[a|] [b|]]] eqn:AX; try discriminate. intro E.
  assert (COL : forall f, (let! smp := axis_samples ax f (u_rows g) in interpolate_df smp (Some (a, b)) (match ax with AxTime => tres | _ => vres end)) =
                          let! smp := axis_samples ax f (u_rows g) in Ok (interp_rows smp a b (match ax with AxTime => tres | _ => vres end))) by reflexivity.
  cbv zeta in E. rewrite (COL col), (COL charge_capacity), (COL discharge_capacity), (COL test_time), (COL voltage) in E. clear COL.
  destruct (axis_samples ax col (u_rows g)) as [S|] eqn:ES; [|discriminate]. destruct (axis_samples ax charge_capacity (u_rows g)) as [Sq|] eqn:ESq; [|discriminate].
  destruct (axis_samples ax discharge_capacity (u_rows g)) as [Sd|] eqn:ESd; [|discriminate]. destruct (axis_samples ax test_time (u_rows g)) as [St|] eqn:ESt; [|discriminate].
  destruct (axis_samples ax voltage (u_rows g)) as [Sv|] eqn:ESv; [|discriminate]. cbn [bind] in E.
  destruct (d_get Z.eqb (g_by_ix cfg) (u_cycle g)) as [type|] eqn:TY; [|discriminate]. cbn [bind] in E.
  destruct (index_z (u_step g) _ 0) as [st|] eqn:ST; [|discriminate]. cbn [bind] in E. injection E as E.
  apply axis_samples_inv in ES, ESq, ESd, ESt, ESv.
  set (n := match ax with AxTime => tres | _ => vres end) in *.
  set (ys := interp_rows S a b n) in *. set (qs := interp_rows Sq a b n) in *. set (ds := interp_rows Sd a b n) in *.
  set (ts := interp_rows St a b n) in *. set (vs := interp_rows Sv a b n) in *.
  assert (Fq : map fst qs = map fst ys) by (apply same_axis; eapply measured_fst; eassumption).
  assert (Fd : map fst ds = map fst ys) by (apply same_axis; eapply measured_fst; eassumption).
  assert (Ft : map fst ts = map fst ys) by (apply same_axis; eapply measured_fst; eassumption).
  assert (Fv : map fst vs = map fst ys) by (apply same_axis; eapply measured_fst; eassumption).
  unfold sample in *.
  set (vs' := match ax with AxTime => map snd vs | _ => map (fun p => Some (fst p)) vs end) in *.
  set (ts' := match ax with AxTime => map (fun p => Some (fst p)) ts | _ => map snd ts end) in *.
  assert (NM : forall (l : list (Q * num)) (f : Q * num -> num) i, nth_error (map f l) i = match nth_error l i with Some p => Some (f p) | None => None end).
  { induction l as [|p l IH]; intros f [|i]; cbn; auto. }
  assert (NV : forall i, nth_error vs' i = match nth_error vs i with Some p => Some (match ax with AxTime => snd p | _ => Some (fst p) end) | None => None end).
  { intro i. unfold vs'. destruct ax; apply (NM vs). }
  assert (NT : forall i, nth_error ts' i = match nth_error ts i with Some p => Some (match ax with AxTime => Some (fst p) | _ => snd p end) | None => None end).
  { intro i. unfold ts'. destruct ax; apply (NM ts). }
  assert (NTH : forall (l : list (Q * num)) i x y, map fst l = map fst ys -> nth_error ys i = Some (x, y) -> exists z, nth_error l i = Some (x, z)).
  { intros l i x y EQ N. pose proof (map_nth_error fst i ys N) as M. rewrite <- EQ in M. apply nth_map_inv in M as ([x' z] & M & E2). cbn in E2. subst x'. exists z. exact M. }
  set (ddq := slopes None (combine vs' (map snd ds))) in *. set (cdq := slopes None (combine vs' (map snd qs))) in *.
  assert (LY : forall l : list (Q * num), map fst l = map fst ys -> length l = length ys).
  { intros l EQ. apply (f_equal (@length Q)) in EQ. rewrite !map_length in EQ. exact EQ. }
  assert (LV : length vs' = length ys) by (unfold vs'; destruct ax; rewrite map_length; apply LY, Fv).
  assert (LC : forall (l m : list num), length l = length ys -> length m = length ys -> length (slopes None (combine l m)) = length ys).
  { intros l m L1 L2. rewrite slopes_length, combine_length, L1, L2. lia. }
  assert (LM : forall l : list (Q * num), map fst l = map fst ys -> length (map snd l) = length ys) by (intros l EQ; rewrite map_length; apply LY, EQ).
  assert (LDD : length ddq = length ys) by (apply LC; [exact LV|apply LM, Fd]).
  assert (LCD : length cdq = length ys) by (apply LC; [exact LV|apply LM, Fq]).
  assert (LT : length ts' = length ys) by (unfold ts'; destruct ax; rewrite map_length; apply LY, Ft).
  match type of E with (if (length (map ?f ?w) <? 2)%nat then _ else _) = _ => set (mk := f) in E; set (W := w) in E end.
  exists ax, a, b, type, st, S, Sq, Sd, St, Sv, (map mk W). repeat (split; [assumption || reflexivity|]).
  assert (NW : forall i x y, nth_error ys i = Some (x, y) -> exists q d t v dd cd,
    nth_error qs i = Some (x, q) /\ nth_error ds i = Some (x, d) /\ nth_error ts i = Some (x, t) /\ nth_error vs i = Some (x, v) /\
    nth_error ddq i = Some dd /\ nth_error cdq i = Some cd /\
    nth_error W i = Some ((x, y), (q, (d, ((match ax with AxTime => Some x | _ => t end), ((match ax with AxTime => v | _ => Some x end), (dd, cd))))))).
  { intros i x y N. destruct (NTH qs i x y Fq N) as (q & Q). destruct (NTH ds i x y Fd N) as (d & D). destruct (NTH ts i x y Ft N) as (t & T). destruct (NTH vs i x y Fv N) as (v & V).
    assert (IL : (i < length ys)%nat) by (apply nth_error_Some; rewrite N; discriminate).
    destruct (nth_error ddq i) as [dd|] eqn:DD; [|apply nth_error_None in DD; lia]. destruct (nth_error cdq i) as [cd|] eqn:CD; [|apply nth_error_None in CD; lia].
    exists q, d, t, v, dd, cd. repeat (split; [assumption || reflexivity|]).
    unfold W. rewrite !nth_combine, N, (map_nth_error snd i qs Q), (map_nth_error snd i ds D), NT, NV, T, V, DD, CD. reflexivity. }
  assert (LW : length W = length ys).
  { assert (C2 : forall A B (l : list A) (m : list B), length l = length ys -> length m = length ys -> length (combine l m) = length ys).
    { intros A B l m L1 L2. rewrite combine_length, L1, L2. lia. }
    unfold W. repeat (apply C2; [first [reflexivity | apply LM; assumption | assumption]|]). assumption. }
  cbn zeta. split; [symmetry; exact E|]. split.
  { apply nth_ext with (d := 0) (d' := 0); rewrite !map_length; [exact LW|]. intros i I. assert (IL : (i < length ys)%nat) by (rewrite <- LW; exact I).
    destruct (nth_error ys i) as [[x y]|] eqn:N; [|apply nth_error_None in N; lia]. destruct (NW i x y N) as (q & d & t & v & dd & cd & _ & _ & _ & _ & _ & _ & WI).
    assert (A1 : nth_error (map k_x (map mk W)) i = Some x) by (apply (map_nth_error k_x i (map mk W) (map_nth_error mk i W WI))).
    assert (A2 : nth_error (map fst ys) i = Some x) by (apply (map_nth_error fst i ys N)).
    transitivity x; [exact (nth_error_nth _ _ 0 A1)|symmetry; exact (nth_error_nth _ _ 0 A2)]. }
  assert (ROW : forall i r, nth_error (map mk W) i = Some r -> exists x y q d t v dd cd,
    nth_error ys i = Some (x, y) /\ nth_error qs i = Some (x, q) /\ nth_error ds i = Some (x, d) /\ nth_error ts i = Some (x, t) /\ nth_error vs i = Some (x, v) /\
    nth_error ddq i = Some dd /\ nth_error cdq i = Some cd /\
    r = mk ((x, y), (q, (d, ((match ax with AxTime => Some x | _ => t end), ((match ax with AxTime => v | _ => Some x end), (dd, cd))))))).
  { intros i r N. apply nth_map_inv in N as (w & N & <-). assert (IL : (i < length ys)%nat) by (rewrite <- LW; apply nth_error_Some; intro K; pose proof (eq_trans (eq_sym K) N); discriminate).
    destruct (nth_error ys i) as [[x y]|] eqn:NY; [|apply nth_error_None in NY; lia]. destruct (NW i x y NY) as (q & d & t & v & dd & cd & H1 & H2 & H3 & H4 & H5 & H6 & WI).
    pose proof (eq_trans (eq_sym WI) N) as EW. injection EW as <-. exists x, y, q, d, t, v, dd, cd. repeat (split; [assumption || reflexivity|]). reflexivity. }
  intros i r N. destruct (ROW i r N) as (x & y & q & d & t & v & dd & cd & H1 & H2 & H3 & H4 & H5 & H6 & H7 & ->).
  cbn [mk k_x k_y k_q k_d k_time k_voltage k_cycle k_type k_step k_counter k_steptype k_on_time fst snd].
  split; [exact H1|]. split; [exact H2|]. split; [exact H3|]. split; [destruct ax; split; try reflexivity; assumption|].
  do 6 (split; [reflexivity|]).
  intros r' N'. destruct (ROW _ r' N') as (x' & y' & q' & d' & t' & v' & dd' & cd' & K1 & K2 & K3 & K4 & K5 & K6 & K7 & ->).
  cbn [mk k_q k_d k_voltage k_ddq k_cdq fst snd].
  assert (CB : forall (l : list (Q * num)) z z', nth_error l i = Some (x, z) -> nth_error l (Datatypes.S i) = Some (x', z') ->
    nth_error (slopes None (combine vs' (map snd l))) (Datatypes.S i) =
      Some (ndiv_finite (nsub z' z) (nsub (match ax with AxTime => v' | _ => Some x' end) (match ax with AxTime => v | _ => Some x end)))).
  { intros l z z' Z1 Z2. rewrite (slopes_next (combine vs' (map snd l)) None i (match ax with AxTime => v | _ => Some x end, z) (match ax with AxTime => v' | _ => Some x' end, z')).
    - reflexivity.
    - rewrite nth_combine, NV, H5, (map_nth_error snd i l Z1). reflexivity.
    - rewrite nth_combine, NV, K5, (map_nth_error snd (Datatypes.S i) l Z2). reflexivity. }
  split.
  - pose proof (CB ds d d' H3 K3) as C. fold ddq in C. rewrite K6 in C. injection C as ->. reflexivity.
  - pose proof (CB qs q q' H2 K2) as C. fold cdq in C. rewrite K7 in C. injection C as ->. reflexivity.
Qed.

(** ** Steps of a cycle *)
Definition parts_ok (parts : list (list row)) : Prop := cut_into_steps (concat parts) parts.
Lemma parts_tail p ps : parts_ok (p :: ps) -> parts_ok ps.
Proof.
  intros (_ & A & B). split; [reflexivity|]. split; [intros q Q; apply A; right; exact Q|].
  intros l x y l' E. apply (B (p :: l) x y l'). rewrite E. reflexivity.
Qed.
Fixpoint numbered (k : Z) (parts : list (list row)) : list (Z * row) :=
  match parts with [] => [] | p :: ps => map (pair (k + 1)%Z) p ++ numbered (k + 1) ps end.
Lemma count_same s k p rest : (forall r, In r p -> step_index r = s) ->
  count_steps (Some s) k (p ++ rest) = map (pair k) p ++ count_steps (Some s) k rest.
Proof.
  induction p as [|r p IH]; intro H; [reflexivity|]. cbn [app count_steps map]. rewrite (H r (or_introl eq_refl)), Z.eqb_refl. f_equal.
  apply IH. intros; apply H; right; assumption.
Qed.
Lemma count_parts parts : forall prev k, parts_ok parts ->
  (forall s p ps r, prev = Some s -> parts = p :: ps -> In r p -> step_index r <> s) ->
  count_steps prev k (concat parts) = numbered k parts.
Proof.
  induction parts as [|p ps IH]; intros prev k OK PREV; [reflexivity|].
  destruct p as [|r p]; [destruct OK as (_ & A & _); destruct (A [] (or_introl eq_refl)) as [K _]; congruence|].
  assert (A := OK). destruct A as (_ & A & B). destruct (A _ (or_introl eq_refl)) as [_ C].
  cbn [concat app count_steps numbered map].
  assert (NEW : (if match prev with Some s => Z.eqb (step_index r) s | None => false end then k else (k + 1)%Z) = (k + 1)%Z).
  { destruct prev as [s|]; [|reflexivity]. destruct (Z.eqb_spec (step_index r) s) as [E|]; [|reflexivity].
    exfalso. exact (PREV s _ _ r eq_refl eq_refl (or_introl eq_refl) E). }
  rewrite NEW. f_equal. rewrite (count_same (step_index r)) by (intros x X; apply C; [right; exact X|left; reflexivity]).
  f_equal. apply IH; [exact (parts_tail _ _ OK)|]. intros s q qs x E1 E2 X. injection E1 as <-. subst ps.
  intro K. apply (B [] (r :: p) q qs eq_refl r x (or_introl eq_refl) X). symmetry. exact K.
Qed.
Lemma cut_exists rows : exists parts, cut_into_steps rows parts.
Proof.
  induction rows as [|r rows (parts & E & A & B)].
  - exists []. split; [reflexivity|]. split; [intros ? []|]. intros l p q l' K. destruct l; discriminate.
  - destruct parts as [|p ps].
    + exists [[r]]. cbn in E. subst rows. split; [reflexivity|]. split.
      * intros p [<-|[]]. split; [discriminate|]. intros x y [<-|[]] [<-|[]]. reflexivity.
      * intros l p q l' K. destruct l as [|? [|]]; discriminate.
    + destruct (A p (or_introl eq_refl)) as [NE C]. destruct p as [|x p]; [congruence|].
      destruct (Z.eq_dec (step_index r) (step_index x)) as [EQ|NQ].
      * exists ((r :: x :: p) :: ps). subst rows. split; [reflexivity|]. split.
        -- intros q [<-|Q]; [|apply A; right; exact Q]. split; [discriminate|].
           assert (G : forall y, In y (r :: x :: p) -> step_index y = step_index x).
           { intros y [<-|Y]; [exact EQ|]. apply C; [exact Y|left; reflexivity]. }
           intros y z Y Z. rewrite (G y Y), (G z Z). reflexivity.
        -- intros l a b l' K. destruct l as [|l0 l].
           ++ injection K as <- ->. intros y z Y Z. assert (Y' : step_index y = step_index x).
              { destruct Y as [<-|Y]; [exact EQ|]. apply C; [exact Y|left; reflexivity]. }
              rewrite Y'. apply (B [] (x :: p) b l' eq_refl x z (or_introl eq_refl) Z).
           ++ injection K as <- ->. apply (B ((x :: p) :: l) a b l' eq_refl).
      * exists ([r] :: (x :: p) :: ps). subst rows. split; [reflexivity|]. split.
        -- intros q [<-|Q]; [|apply A; exact Q]. split; [discriminate|]. intros y z [<-|[]] [<-|[]]. reflexivity.
        -- intros l a b l' K. destruct l as [|l0 l].
           ++ injection K as <- <- <-. intros y z [<-|[]] Z. rewrite (C z x Z (or_introl eq_refl)). exact NQ.
           ++ injection K as <- K. apply (B l a b l' K).
Qed.

Lemma numbered_in parts : forall k j r, In (j, r) (numbered k parts) <-> exists i p, nth_error parts i = Some p /\ j = (k + 1 + Z.of_nat i)%Z /\ In r p.
Proof.
  induction parts as [|p ps IH]; intros k j r; cbn [numbered].
  - split; [intros []|intros ([|i] & q & E & _); discriminate].
  - rewrite in_app_iff, in_map_iff, IH. split.
    + intros [(x & E & X)|(i & q & E & J & X)].
      * injection E as <- <-. exists 0%nat, p. split; [reflexivity|]. split; [lia|exact X].
      * exists (S i), q. split; [exact E|]. split; [lia|exact X].
    + intros ([|i] & q & E & J & X); cbn in E.
      * injection E as <-. left. exists r. split; [f_equal; lia|exact X].
      * right. exists i, q. split; [exact E|]. split; [lia|exact X].
Qed.
Lemma numbered_filter parts : forall k i, filter (fun p => Z.eqb (fst p) (k + 1 + Z.of_nat i)%Z) (numbered k parts) =
  match nth_error parts i with Some p => map (pair (k + 1 + Z.of_nat i)%Z) p | None => [] end.
Proof.
  induction parts as [|p ps IH]; intros k i; cbn [numbered]; [destruct i; reflexivity|]. rewrite filter_app.
  assert (CONST : forall (j n : Z) (l : list row), filter (fun p : Z * row => Z.eqb (fst p) n) (map (pair j) l) = if Z.eqb j n then map (pair j) l else []).
  { intros j n l. induction l as [|x l IHl]; cbn; [destruct (Z.eqb j n); reflexivity|]. rewrite IHl. destruct (Z.eqb j n); reflexivity. }
  rewrite CONST. destruct i as [|i].
  - replace (k + 1 =? k + 1 + Z.of_nat 0)%Z with true by (symmetry; apply Z.eqb_eq; lia). cbn [nth_error].
    replace (k + 1 + Z.of_nat 0)%Z with (k + 1)%Z by lia.
    assert (NONE : filter (fun p0 : Z * row => (fst p0 =? k + 1)%Z) (numbered (k + 1) ps) = []).
    { clear. assert (G : forall l : list (Z * row), (forall x, In x l -> fst x <> (k + 1)%Z) -> filter (fun p0 => (fst p0 =? k + 1)%Z) l = []).
      { induction l as [|x l IHl]; intro H; [reflexivity|]. cbn. destruct (Z.eqb_spec (fst x) (k + 1)%Z) as [E|]; [exfalso; exact (H x (or_introl eq_refl) E)|].
        apply IHl. intros; apply H; right; assumption. }
      apply G. intros [j r] I. apply numbered_in in I as (i & q & _ & -> & _). cbn. lia. }
    rewrite NONE, app_nil_r. reflexivity.
  - replace (k + 1 =? k + 1 + Z.of_nat (S i))%Z with false by (symmetry; apply Z.eqb_neq; lia). cbn [app nth_error].
    replace (k + 1 + Z.of_nat (S i))%Z with (k + 1 + 1 + Z.of_nat i)%Z by lia. apply IH.
Qed.
Lemma counted_parts raw c parts : cut_into_steps (cycle_rows raw c) parts -> counted raw c = numbered 0 parts.
Proof.
  intro CUT. unfold counted. assert (E := CUT). destruct E as (E & _). rewrite E. apply count_parts; [|intros ? ? ? ? K; discriminate].
  unfold parts_ok. rewrite <- E. exact CUT.
Qed.
Lemma filter_comm {A} (p q : A -> bool) l : filter p (filter q l) = filter q (filter p l).
Proof. induction l as [|x l IH]; [reflexivity|]. cbn. destruct (p x) eqn:P, (q x) eqn:Q; cbn; rewrite ?P, ?Q, IH; reflexivity. Qed.
Lemma filter_true {A} (p : A -> bool) l : (forall x, In x l -> p x = true) -> filter p l = l.
Proof. induction l as [|x l IH]; intro H; [reflexivity|]. cbn. rewrite (H x (or_introl eq_refl)). f_equal. apply IH. intros; apply H; right; assumption. Qed.

Lemma step_groups_in raw c parts g : cut_into_steps (cycle_rows raw c) parts ->
  (In g (step_groups raw c) <-> exists i p s, nth_error parts i = Some p /\ (forall r, In r p -> step_index r = s) /\
     g = {| u_cycle := c; u_step := s; u_counter := (1 + Z.of_nat i)%Z; u_rows := p |}).
Proof.
  intro CUT. unfold step_groups. rewrite (counted_parts raw c parts CUT), in_flat_map. destruct CUT as (_ & A & _).
  assert (MK : forall i p s, nth_error parts i = Some p -> (forall r, In r p -> step_index r = s) ->
     map snd (filter (fun q : Z * row => Z.eqb (fst q) (1 + Z.of_nat i)%Z) (filter (fun q => Z.eqb (step_index (snd q)) s) (numbered 0 parts))) = p).
  { intros i p s N S. rewrite filter_comm. pose proof (numbered_filter parts 0 i) as F. replace (0 + 1 + Z.of_nat i)%Z with (1 + Z.of_nat i)%Z in F by lia. rewrite F, N.
    rewrite filter_true by (intros q Q; apply in_map_iff in Q as (r & <- & R); cbn; apply Z.eqb_eq, S, R). rewrite map_map. apply map_id. }
  split.
  - intros (s & S & G). apply in_map_iff in G as (k & <- & K). apply (proj1 (sort_z_in _ _)), (proj1 (uniq_in _ _)) in K.
    apply in_map_iff in K as ([k' r] & EK & K). cbn in EK. subst k'. apply filter_In in K as [K SR]. cbn in SR. apply Z.eqb_eq in SR.
    apply numbered_in in K as (i & p & N & -> & R).
    assert (C : forall x, In x p -> step_index x = s).
    { intros x X. destruct (A p (nth_error_In _ _ N)) as [_ C]. rewrite (C x r X R). exact SR. }
    exists i, p, s. split; [exact N|]. split; [exact C|]. replace (0 + 1 + Z.of_nat i)%Z with (1 + Z.of_nat i)%Z by lia. rewrite (MK i p s N C). reflexivity.
  - intros (i & p & s & N & C & ->). destruct (A p (nth_error_In _ _ N)) as [NE _]. destruct p as [|r p]; [congruence|].
    assert (I : In ((1 + Z.of_nat i)%Z, r) (numbered 0 parts)) by (apply numbered_in; exists i, (r :: p); split; [exact N|split; [lia|left; reflexivity]]).
    exists s. split.
    + apply (proj2 (sort_z_in _ _)), (proj2 (uniq_in _ _)), in_map_iff. exists ((1 + Z.of_nat i)%Z, r). split; [apply C; left; reflexivity|exact I].
    + apply in_map_iff. exists (1 + Z.of_nat i)%Z. split; [rewrite (MK i (r :: p) s N C); reflexivity|].
      apply (proj2 (sort_z_in _ _)), (proj2 (uniq_in _ _)), in_map_iff. exists ((1 + Z.of_nat i)%Z, r). split; [reflexivity|].
      apply filter_In. split; [exact I|]. apply Z.eqb_eq, C. left. reflexivity.
Qed.

Lemma nodup_map_inj {A B} (f : A -> B) l : NoDup l -> (forall x y, In x l -> In y l -> f x = f y -> x = y) -> NoDup (map f l).
Proof.
  induction 1 as [|x l N D IH]; intro H; cbn; constructor.
  - intro I. apply in_map_iff in I as (y & E & I). apply N. rewrite <- (H y x (or_intror I) (or_introl eq_refl) E). exact I.
  - apply IH. intros y z Y Z. apply H; right; assumption.
Qed.
Lemma nodup_fop {A} (l : list A) : NoDup l -> ForallOrdPairs (fun x y => x <> y) l.
Proof. induction 1 as [|x l N D IH]; constructor; [|exact IH]. apply Forall_forall. intros y Y E. subst. contradiction. Qed.
Lemma nodup_flat {A B} (f : A -> list B) l : NoDup l -> (forall x, In x l -> NoDup (f x)) -> (forall x y b, In b (f x) -> In b (f y) -> x = y) -> NoDup (flat_map f l).
Proof.
  intros D F U. induction D as [|x l N D IH]; cbn; [constructor|]. apply NoDup_app_iff. split; [apply F; left; reflexivity|]. split.
  - apply IH. intros; apply F; right; assumption.
  - intros b Bb I. apply in_flat_map in I as (y & Y & I). assert (x = y) by (eapply U; eassumption). subst. contradiction.
Qed.
Lemma sort_z_nodup l : NoDup l -> NoDup (sort_z l).
Proof. intro D. eapply Permutation_NoDup; [symmetry; apply sort_z_perm|exact D]. Qed.
Lemma groups_nodup raw ix : NoDup (map (fun g => (u_cycle g, u_counter g)) (groups raw ix)).
Proof.
  assert (CY : forall c g, In g (step_groups raw c) -> u_cycle g = c).
  { intros c g G. destruct (cut_exists (cycle_rows raw c)) as (parts & CUT). apply (proj1 (step_groups_in raw c parts g CUT)) in G. destruct G as (i & p & s & _ & _ & ->). reflexivity. }
  apply nodup_map_inj.
  - unfold groups. apply nodup_flat.
    + apply sort_z_nodup, NoDup_filter, uniq_nodup.
    + intros c _. unfold step_groups. apply nodup_flat.
      * apply sort_z_nodup, uniq_nodup.
      * intros s _. apply nodup_map_inj; [apply sort_z_nodup, uniq_nodup|]. intros x y _ _ E. exact (f_equal u_counter E).
      * intros s s' g G G'. apply in_map_iff in G as (k & <- & _). apply in_map_iff in G' as (k' & E & _). symmetry. exact (f_equal u_step E).
    + intros c c' g G G'. rewrite <- (CY c g G). apply CY, G'.
  - intros g g' G G' E. unfold groups in G, G'. apply in_flat_map in G as (c & _ & G). apply in_flat_map in G' as (c' & _ & G').
    assert (c = c') by (apply (f_equal fst) in E; cbn [fst] in E; rewrite <- (CY c g G), <- (CY c' g' G'); exact E). subst c'.
    destruct (cut_exists (cycle_rows raw c)) as (parts & CUT).
    apply (proj1 (step_groups_in raw c parts g CUT)) in G. destruct G as (i & p & s & N & C & ->). apply (proj1 (step_groups_in raw c parts g' CUT)) in G'. destruct G' as (i' & p' & s' & N' & C' & ->).
    apply (f_equal snd) in E. cbn [snd u_counter] in E. assert (i = i') by lia. subst i'. rewrite N in N'. injection N' as <-.
    destruct CUT as (_ & A & _). destruct (A p (nth_error_In _ _ N)) as [NE _]. destruct p as [|r p]; [congruence|].
    rewrite <- (C r (or_introl eq_refl)), <- (C' r (or_introl eq_refl)). reflexivity.
Qed.
Lemma groups_in raw ix c parts i p s : cut_into_steps (cycle_rows raw c) parts -> nth_error parts i = Some p -> (forall r, In r p -> step_index r = s) -> In c ix ->
  In {| u_cycle := c; u_step := s; u_counter := (1 + Z.of_nat i)%Z; u_rows := p |} (groups raw ix).
Proof.
  intros CUT N C I. unfold groups. apply in_flat_map. exists c. split; [|apply (step_groups_in raw c parts); [exact CUT|eauto 6]].
  apply (proj2 (sort_z_in _ _)), filter_In. split; [|apply mem_z_iff, I]. apply (proj2 (uniq_in _ _)).
  destruct CUT as (E & A & _). destruct (A p (nth_error_In _ _ N)) as [NE _]. destruct p as [|r p]; [congruence|].
  assert (R : In r (cycle_rows raw c)) by (rewrite E; apply in_concat; exists (r :: p); split; [eapply nth_error_In, N|left; reflexivity]).
  unfold cycle_rows in R. apply filter_In in R as [R1 R2]. apply Z.eqb_eq in R2. rewrite <- R2. apply in_map, R1.
Qed.

(** ** Sorting *)
Lemma insert_k_perm r l : Permutation (insert_k r l) (r :: l).
Proof. induction l as [|x l IH]; cbn; [reflexivity|]. destruct (krow_leb r x); [reflexivity|]. etransitivity; [apply perm_skip, IH|apply perm_swap]. Qed.
Lemma sort_k_perm l : Permutation (sort_k l) l.
Proof. induction l as [|x l IH]; cbn; [reflexivity|]. etransitivity; [apply insert_k_perm|]. apply perm_skip, IH. Qed.
Lemma time_leb_total a b : time_leb a b = false -> time_leb b a = true.
Proof. destruct a as [x|], b as [y|]; cbn; try discriminate; try reflexivity. intro H. apply Qle_bool_iff. apply Qlt_le_weak, Qnot_le_lt. intro K. apply Qle_bool_iff in K. congruence. Qed.
Lemma krow_leb_iff a b : krow_leb a b = true <-> not_after a b.
Proof.
  unfold krow_leb, not_after. destruct (Z.eqb_spec (k_cycle a) (k_cycle b)) as [E|N].
  - destruct (Z.eqb_spec (k_counter a) (k_counter b)) as [E2|N2].
    + assert (T : time_leb (k_time a) (k_time b) = true <-> match k_time a, k_time b with Some s, Some t => s <= t | None, Some _ => False | _, None => True end).
      { destruct (k_time a), (k_time b); cbn; rewrite ?Qle_bool_iff; split; intro H; try exact Logic.I; try discriminate; try reflexivity; try contradiction; exact H. }
      rewrite T. split; [intro H; right; split; [exact E|right; split; [exact E2|exact H]]|]. intros [H|(_ & [H|(_ & H)])]; [lia|lia|exact H].
    + rewrite Z.leb_le. split; [intro H; right; split; [exact E|left; lia]|]. intros [H|(_ & [H|(H & _)])]; lia.
  - rewrite Z.leb_le. split; [intro H; left; lia|]. intros [H|(H & _)]; lia.
Qed.
Lemma krow_leb_total a b : krow_leb a b = false -> krow_leb b a = true.
Proof.
  unfold krow_leb. rewrite (Z.eqb_sym (k_cycle b)), (Z.eqb_sym (k_counter b)). destruct (Z.eqb_spec (k_cycle a) (k_cycle b)).
  - destruct (Z.eqb_spec (k_counter a) (k_counter b)); [apply time_leb_total|]. rewrite Z.leb_gt, Z.leb_le. lia.
  - rewrite Z.leb_gt, Z.leb_le. lia.
Qed.
Lemma not_after_trans a b c : not_after a b -> not_after b c -> not_after a c.
Proof.
  unfold not_after. intros [H|(H & [K|(K & L)])] [H'|(H' & [K'|(K' & L')])]; try (left; lia); right; (split; [lia|]); try (left; lia). right. split; [lia|].
  destruct (k_time a), (k_time b), (k_time c); try contradiction; try exact Logic.I. lra.
Qed.
Lemma insert_k_sorted r l : StronglySorted not_after l -> StronglySorted not_after (insert_k r l).
Proof.
  induction 1 as [|x l S IH F]; cbn; [repeat constructor|]. destruct (krow_leb r x) eqn:B.
  - apply krow_leb_iff in B. constructor; [constructor; assumption|]. constructor; [exact B|]. eapply Forall_impl; [|exact F]. intros y Y. eapply not_after_trans; eassumption.
  - apply krow_leb_total, krow_leb_iff in B. constructor; [exact IH|]. apply Forall_forall. intros y Y. apply (Permutation_in _ (insert_k_perm r l)) in Y as [<-|Y]; [exact B|].
    rewrite Forall_forall in F. apply F, Y.
Qed.
Lemma sort_k_sorted l : StronglySorted not_after (sort_k l).
Proof. induction l as [|x l IH]; cbn; [constructor|apply insert_k_sorted, IH]. Qed.

(** ** The whole result *)
Lemma filter_perm {A} (p : A -> bool) l m : Permutation l m -> Permutation (filter p l) (filter p m).
Proof.
  induction 1 as [|x l m P IH|x y l|l m n P IH P' IH']; cbn; [constructor| | |etransitivity; eassumption].
  - destruct (p x); [apply perm_skip, IH|exact IH].
  - destruct (p x), (p y); try reflexivity. apply perm_swap.
Qed.
Lemma concat_nonempty {A} (bs : list (list A)) : concat (filter (fun b => negb (length b =? 0)%nat) bs) = concat bs.
Proof. induction bs as [|[|x b] bs IH]; cbn; [reflexivity|exact IH|]. rewrite IH. reflexivity. Qed.
Lemma whole_inv cfg tres vres dvm fb col raw out : interpolate_diagnostic (Some cfg) tres vres dvm fb col raw = Ok out ->
  exists blocks, Forall2 (fun g b => interpolate_group cfg tres vres dvm fb col raw g = Ok b) (groups raw (g_all_ix cfg)) blocks /\
  out = sort_k (concat blocks).
Proof.
  cbn [interpolate_diagnostic]. destruct (mapM _ _) as [blocks|] eqn:M; [|discriminate]. cbn [bind]. intro E. exists blocks. split; [apply mapM_ok, M|].
  rewrite <- (concat_nonempty blocks). destruct (filter _ blocks); [discriminate|]. injection E as <-. reflexivity.
Qed.
Lemma group_key cfg tres vres dvm fb col raw g b r : interpolate_group cfg tres vres dvm fb col raw g = Ok b -> In r b -> k_cycle r = u_cycle g /\ k_counter r = u_counter g.
Proof.
  intros E I. apply group_inv in E as (ax & a & b' & type & st & S & Sq & Sd & St & Sv & rows & _ & _ & _ & _ & _ & _ & _ & _ & -> & _ & R).
  destruct (length rows <? 2)%nat; [destruct I|]. apply In_nth_error in I as (i & N). destruct (R i r N) as (_ & _ & _ & _ & ? & _ & _ & ? & _). split; assumption.
Qed.
Lemma select cfg tres vres dvm fb col raw : forall gs blocks, Forall2 (fun g b => interpolate_group cfg tres vres dvm fb col raw g = Ok b) gs blocks ->
  NoDup (map (fun g => (u_cycle g, u_counter g)) gs) -> forall g, In g gs ->
  exists b, interpolate_group cfg tres vres dvm fb col raw g = Ok b /\ filter (of_step (u_cycle g) (u_counter g)) (concat blocks) = b.
Proof.
  assert (OWN : forall c k g b, interpolate_group cfg tres vres dvm fb col raw g = Ok b ->
    filter (of_step c k) b = if Z.eqb (u_cycle g) c && Z.eqb (u_counter g) k then b else []).
  { intros c k g b E. assert (A : forall r, In r b -> k_cycle r = u_cycle g /\ k_counter r = u_counter g) by (intros r; apply (group_key _ _ _ _ _ _ _ _ _ r E)). clear E.
    induction b as [|r b IH]; cbn; [destruct (_ && _); reflexivity|]. destruct (A r (or_introl eq_refl)) as [E1 E2]. unfold of_step at 1. rewrite E1, E2.
    rewrite IH by (intros; apply A; right; assumption). destruct (_ && _); reflexivity. }
  induction 1 as [|g0 b0 gs blocks E F IH]; intros D g G; [destruct G|]. cbn [concat]. rewrite filter_app. cbn in D. inversion D as [|? ? N D']; subst.
  rewrite (OWN _ _ _ _ E). destruct G as [<-|G].
  - exists b0. split; [exact E|]. rewrite !Z.eqb_refl. cbn [andb].
    assert (NONE : filter (of_step (u_cycle g0) (u_counter g0)) (concat blocks) = []).
    { clear - F N OWN. induction F as [|g1 b1 gs blocks E F IH]; [reflexivity|]. cbn [concat]. rewrite filter_app, (OWN _ _ _ _ E), IH by (intro K; apply N; right; exact K).
      destruct (Z.eqb_spec (u_cycle g1) (u_cycle g0)), (Z.eqb_spec (u_counter g1) (u_counter g0)); try reflexivity. exfalso. apply N. left. congruence. }
    rewrite NONE, app_nil_r. reflexivity.
  - destruct (IH D' g G) as (b & E1 & E2). exists b. split; [exact E1|]. rewrite E2.
    destruct (Z.eqb_spec (u_cycle g0) (u_cycle g)), (Z.eqb_spec (u_counter g0) (u_counter g)); try reflexivity.
    exfalso. apply N. apply in_map_iff. exists g. split; [congruence|exact G].
Qed.
Lemma step_block cfg tres vres dvm fb col raw out c parts i p s :
  interpolate_diagnostic (Some cfg) tres vres dvm fb col raw = Ok out -> In c (g_all_ix cfg) ->
  cut_into_steps (cycle_rows raw c) parts -> nth_error parts i = Some p -> (forall r, In r p -> step_index r = s) ->
  exists b, interpolate_group cfg tres vres dvm fb col raw {| u_cycle := c; u_step := s; u_counter := (1 + Z.of_nat i)%Z; u_rows := p |} = Ok b /\
  Permutation b (filter (of_step c (1 + Z.of_nat i)) out).
Proof.
  intros E I CUT N C. apply whole_inv in E as (blocks & F & ->).
  pose proof (groups_in raw (g_all_ix cfg) c parts i p s CUT N C I) as G.
  destruct (select _ _ _ _ _ _ _ _ _ F (groups_nodup raw (g_all_ix cfg)) _ G) as (b & E1 & E2). exists b. split; [exact E1|].
  cbn [u_cycle u_counter] in E2. rewrite <- E2. apply filter_perm. symmetry. apply sort_k_perm.
Qed.

(** C94: the change between two diagnostics.  C95: resistances.  C96: voltages and diffusion.
    C97: the columns of the hppc features and the fraction that remains. *)
From Coq Require Import Sorting.Permutation Sorting.Sorted Psatz Lqa Qabs.
From Verif Require Import Py Num Model_Text Model_Diagnostic Model_Summary Model_Features Model_Stats Model_Degrade Model_Lookup Spec_Stats Proofs_Stats Model_Hppc Spec_Hppc Proofs_Life Proofs_Hppc.
From Verif Require Proofs_Diagnostic Proofs_Frames.
From Verif Require Import Props_Lookup.

Section C94.
  (** any parameter files, logarithm, skewness and kurtosis *)
  Variables (dir : directory) (log10 : Q -> cell) (skew kurtosis : list num -> num).
  Notation stats := (summary_stats dir log10 skew kurtosis).

  (** What becomes of the run: the records of the "final" diagnostic and of steps without a time are
      dropped, nothing else changes. *)
  Theorem C94_what_is_kept type p0 p1 names tf cf r r' fs :
    stats type p0 p1 names tf cf r = (r', fs) ->
    what_is_kept tf cf (run_data r) (run_data r') /\ run_summary r' = run_summary r /\ run_protocol r' = run_protocol r.
  Proof. unfold summary_stats. intros [= <- _]. split; [apply clean_kept|split; reflexivity]. Qed.
  (** Featurizing again changes nothing more and gives the same features. *)
  Theorem C94_again type p0 p1 names tf cf r r' fs :
    stats type p0 p1 names tf cf r = (r', fs) -> stats type p0 p1 names tf cf r' = (r', fs).
  Proof. unfold summary_stats. intros [= <- <-]. rewrite clean_clean. reflexivity. Qed.

  (** 54 features: every statistic of every quantity, then the changes of the summary. *)
  Definition expected (names : list string) (p0 p1 : Z) : list string :=
    flat_map (fun q => map (fun s => (s ++ "_" ++ fst q)%string) names) diag_meaning ++
    flat_map (fun t => map (fun m => diff_name p0 p1 t (fst m)) summary_meaning) rpt_types.
  Lemma summary_diff_names p0 p1 summary diff : summary_diff p0 p1 summary = Ok diff ->
    map fst diff = flat_map (fun t => map (fun m => diff_name p0 p1 t (fst m)) summary_meaning) rpt_types.
  Proof.
    unfold summary_diff. intro E. destruct mapM as [parts|] eqn:M in E; [|discriminate]. injection E as <-.
    apply (mapM_concat_fst _ (fun t => map (fun m => diff_name p0 p1 t (fst m)) summary_meaning)) in M; [exact M|].
    intros t y Y. apply (mapM_fst _ (fun m => diff_name p0 p1 t (fst m))) in Y; [exact Y|].
    intros m z Z. destruct at_pos in Z; [|discriminate]. cbn [bind] in Z. destruct at_pos in Z; [|discriminate]. injection Z as <-. reflexivity.
  Qed.
  Lemma block_seven names f data c0 s0 c1 s1 v : change_block log10 skew kurtosis names f data c0 s0 c1 s1 = Ok v -> length v = 7%nat.
  Proof.
    unfold change_block. destruct np_sub; [|discriminate]. cbn [bind]. destruct get_summary_statistics; [|discriminate]. cbn [bind].
    intro X. apply seven_shape in X as (? & ? & ? & ? & ? & ? & ? & -> & _). reflexivity.
  Qed.
  Lemma block_is names f data c0 s0 c1 s1 v : change_block log10 skew kurtosis names f data c0 s0 c1 s1 = Ok v ->
    length (values_in data c1 s1 f) = length (values_in data c0 s0 f) ->
    get_summary_statistics log10 skew kurtosis names (change (values_in data c1 s1 f) (values_in data c0 s0 f)) = Ok v.
  Proof.
    unfold change_block, in_step, in_cycle. intros E L. rewrite !filter_filter in E.
    fold (values_in data c1 s1 f) in E. fold (values_in data c0 s0 f) in E. rewrite (np_sub_same _ _ L) in E. cbn [bind] in E. rewrite dropna_change in E.
    destruct get_summary_statistics as [s|] in E |- *; [|discriminate]. cbn [bind] in E. apply seven_shape in E as (? & ? & ? & ? & ? & ? & ? & -> & ->). reflexivity.
  Qed.
  (** the way through create_features *)
  Lemma stats_inv type p0 p1 names tf cf r r' fs : stats type p0 p1 names tf cf r = (r', Ok fs) ->
    exists steps0 steps1 c0 c1 chg0 chg1 dis0 dis1 v1 v2 v3 v4 v5 v6 diff,
      step_index dir r' type p0 = Ok steps0 /\ step_index dir r' type p1 = Ok steps1 /\
      occurrence (run_data r') type p0 c0 /\ occurrence (run_data r') type p1 c1 /\
      sget steps0 (type ++ "_charge")%string = Some chg0 /\ sget steps1 (type ++ "_charge")%string = Some chg1 /\
      sget steps0 (type ++ "_discharge")%string = Some dis0 /\ sget steps1 (type ++ "_discharge")%string = Some dis1 /\
      change_block log10 skew kurtosis names q_qc (run_data r') c0 chg0 c1 chg1 = Ok v1 /\
      change_block log10 skew kurtosis names q_qd (run_data r') c0 dis0 c1 dis1 = Ok v2 /\
      change_block log10 skew kurtosis names q_ec (run_data r') c0 chg0 c1 chg1 = Ok v3 /\
      change_block log10 skew kurtosis names q_ed (run_data r') c0 dis0 c1 dis1 = Ok v4 /\
      change_block log10 skew kurtosis names q_dqc (run_data r') c0 chg0 c1 chg1 = Ok v5 /\
      change_block log10 skew kurtosis names q_dqd (run_data r') c0 dis0 c1 dis1 = Ok v6 /\
      summary_diff p0 p1 (run_summary r') = Ok diff /\ length (expected names p0 p1) = 54%nat /\
      fs = combine (expected names p0 p1) (v1 ++ v2 ++ v3 ++ v4 ++ v5 ++ v6 ++ map (fun p => cell_of (snd p)) diff).
  Proof.
    unfold summary_stats. set (r1 := clean tf cf r). intros X. pose proof (f_equal fst X) as A. pose proof (f_equal snd X) as E. cbn [fst snd] in A, E. subst r'. clear X. clearbody r1. cbv zeta in E. unfold occurrence. change (filter (fun r0 : drec => String.eqb (q_type r0) type) (run_data r1)) with (of_type type (run_data r1)).
    destruct (step_index dir r1 type p0) as [steps0|] eqn:X1; [|discriminate E]. cbn [bind] in E. destruct (step_index dir r1 type p1) as [steps1|] eqn:X2; [|discriminate E]. cbn [bind] in E.
    unfold at_pos at 1 in E. destruct (py_nth _ p0) as [c0|] eqn:X3; [|discriminate E]. cbn [bind] in E.
    unfold key at 1 in E. destruct (sget steps0 (type ++ "_charge")%string) as [chg0|] eqn:X4; [|discriminate E]. cbn [bind] in E.
    unfold at_pos at 1 in E. destruct (py_nth _ p1) as [c1|] eqn:X5; [|discriminate E]. cbn [bind] in E.
    unfold key at 1 in E. destruct (sget steps1 (type ++ "_charge")%string) as [chg1|] eqn:X6; [|discriminate E]. cbn [bind] in E.
    unfold key at 1 in E. destruct (sget steps0 (type ++ "_discharge")%string) as [dis0|] eqn:X7; [|discriminate E]. cbn [bind] in E.
    unfold key at 1 in E. destruct (sget steps1 (type ++ "_discharge")%string) as [dis1|] eqn:X8; [|discriminate E]. cbn [bind] in E.
    exists steps0, steps1, c0, c1, chg0, chg1, dis0, dis1.
    destruct (change_block log10 skew kurtosis names q_qc (run_data r1) c0 chg0 c1 chg1) as [v1|] eqn:B1; [|discriminate E]. cbn [bind] in E.
    destruct (change_block log10 skew kurtosis names q_qd (run_data r1) c0 dis0 c1 dis1) as [v2|] eqn:B2; [|discriminate E]. cbn [bind] in E.
    destruct (change_block log10 skew kurtosis names q_ec (run_data r1) c0 chg0 c1 chg1) as [v3|] eqn:B3; [|discriminate E]. cbn [bind] in E.
    destruct (change_block log10 skew kurtosis names q_ed (run_data r1) c0 dis0 c1 dis1) as [v4|] eqn:B4; [|discriminate E]. cbn [bind] in E.
    destruct (change_block log10 skew kurtosis names q_dqc (run_data r1) c0 chg0 c1 chg1) as [v5|] eqn:B5; [|discriminate E]. cbn [bind] in E.
    destruct (change_block log10 skew kurtosis names q_dqd (run_data r1) c0 dis0 c1 dis1) as [v6|] eqn:B6; [|discriminate E]. cbn [bind] in E. cbn [bind] in E.
    destruct (summary_diff p0 p1 (run_summary r1)) as [diff|] eqn:D; [|discriminate E]. cbn [bind] in E.
    exists v1, v2, v3, v4, v5, v6, diff. pose proof (summary_diff_names _ _ _ _ D) as DN. rewrite DN in E. change (flat_map _ diag_quantities ++ _) with (expected names p0 p1) in E.
    destruct (length (expected names p0 p1) =? 54)%nat eqn:L; [|discriminate E]. apply Nat.eqb_eq in L. injection E as <-. repeat split; assumption || reflexivity.
  Qed.
  Theorem C94_names type p0 p1 names tf cf r r' fs :
    stats type p0 p1 names tf cf r = (r', Ok fs) -> map fst fs = expected names p0 p1 /\ length fs = 54%nat.
  Proof.
    intro E. apply stats_inv in E as (steps0 & steps1 & c0 & c1 & chg0 & chg1 & dis0 & dis1 & v1 & v2 & v3 & v4 & v5 & v6 & diff & _ & _ & _ & _ & _ & _ & _ & _ & B1 & B2 & B3 & B4 & B5 & B6 & D & L & ->).
    apply block_seven in B1, B2, B3, B4, B5, B6. apply summary_diff_names in D. assert (LD : length diff = 12%nat) by (rewrite <- (map_length fst), D; reflexivity).
    assert (LV : length (v1 ++ v2 ++ v3 ++ v4 ++ v5 ++ v6 ++ map (fun p : string * num => cell_of (snd p)) diff) = 54%nat).
    { rewrite !app_length, map_length, B1, B2, B3, B4, B5, B6, LD. reflexivity. }
    split; [apply combine_map_fst; congruence|]. rewrite combine_length, L, LV. reflexivity.
  Qed.
  (** With the statistics in their standard order, the feature named after a statistic and a quantity
      is that statistic of the change of that quantity from the diagnostic at the first position to
      that at the second, between the charge (discharge) step of the one and of the other, if the two
      steps have equally many points. *)
  Theorem C94_statistics type p0 p1 tf cf r r' fs :
    stats type p0 p1 supported tf cf r = (r', Ok fs) ->
    exists steps0 steps1 c0 c1,
      step_index dir r' type p0 = Ok steps0 /\ step_index dir r' type p1 = Ok steps1 /\
      occurrence (run_data r') type p0 c0 /\ occurrence (run_data r') type p1 c1 /\
      forall q, In q diag_meaning -> exists s0 s1,
        sget steps0 (type ++ fst (snd q))%string = Some s0 /\ sget steps1 (type ++ fst (snd q))%string = Some s1 /\
        let new := values_in (run_data r') c1 s1 (snd (snd q)) in
        let old := values_in (run_data r') c0 s0 (snd (snd q)) in
        (length new = length old -> forall s, In s supported ->
         exists c, sget fs (s ++ "_" ++ fst q)%string = Some c /\ is_statistic log10 skew kurtosis s (change new old) c).
  Proof.
    intro E. apply stats_inv in E as (steps0 & steps1 & c0 & c1 & chg0 & chg1 & dis0 & dis1 & v1 & v2 & v3 & v4 & v5 & v6 & diff & S0 & S1 & O0 & O1 & G1 & G2 & G3 & G4 & B1 & B2 & B3 & B4 & B5 & B6 & _ & _ & ->).
    exists steps0, steps1, c0, c1. do 4 (split; [assumption|]).
    pose proof (block_seven _ _ _ _ _ _ _ _ B1) as L1. pose proof (block_seven _ _ _ _ _ _ _ _ B2) as L2. pose proof (block_seven _ _ _ _ _ _ _ _ B3) as L3.
    pose proof (block_seven _ _ _ _ _ _ _ _ B4) as L4. pose proof (block_seven _ _ _ _ _ _ _ _ B5) as L5. pose proof (block_seven _ _ _ _ _ _ _ _ B6) as L6.
    destruct v1 as [|a1 [|a2 [|a3 [|a4 [|a5 [|a6 [|a7 [|? ?]]]]]]]]; try discriminate L1.
    destruct v2 as [|b1 [|b2 [|b3 [|b4 [|b5 [|b6 [|b7 [|? ?]]]]]]]]; try discriminate L2.
    destruct v3 as [|d1 [|d2 [|d3 [|d4 [|d5 [|d6 [|d7 [|? ?]]]]]]]]; try discriminate L3.
    destruct v4 as [|e1 [|e2 [|e3 [|e4 [|e5 [|e6 [|e7 [|? ?]]]]]]]]; try discriminate L4.
    destruct v5 as [|f1 [|f2 [|f3 [|f4 [|f5 [|f6 [|f7 [|? ?]]]]]]]]; try discriminate L5.
    destruct v6 as [|g1 [|g2 [|g3 [|g4 [|g5 [|g6 [|g7 [|? ?]]]]]]]]; try discriminate L6.
    clear L1 L2 L3 L4 L5 L6.
    intros q I. repeat destruct I as [<-|I]; try destruct I; cbn [fst snd]; [exists chg0, chg1 | exists dis0, dis1 | exists chg0, chg1 | exists dis0, dis1 | exists chg0, chg1 | exists dis0, dis1];
      (split; [assumption|split; [assumption|]]); intros L s SU;
      (assert (POS : exists i, (i < 7)%nat /\ nth_error supported i = Some s)
         by (apply In_nth_error in SU as [i N]; exists i; split; [change 7%nat with (length supported); apply nth_error_Some; rewrite N; discriminate|exact N]));
      destruct POS as (i & I7 & N);
      [apply (block_is _ _ _ _ _ _ _ _ B1) in L|apply (block_is _ _ _ _ _ _ _ _ B2) in L|apply (block_is _ _ _ _ _ _ _ _ B3) in L
      |apply (block_is _ _ _ _ _ _ _ _ B4) in L|apply (block_is _ _ _ _ _ _ _ _ B5) in L|apply (block_is _ _ _ _ _ _ _ _ B6) in L];
      rewrite all_supported in L; destruct (mapM_nth _ _ _ _ _ L N) as (x & X & Y); exists x; (split; [|apply statistic_is; assumption]);
      clear - X I7 N; do 7 (destruct i as [|i]; [injection N as <-; injection X as <-; reflexivity|]); lia.
  Qed.
  (** The feature named after a type of diagnostic and a summary quantity is the change of that
      quantity relative to the diagnostic at the first position. *)
  Theorem C94_summary_change type p0 p1 names tf cf r r' fs :
    stats type p0 p1 names tf cf r = (r', Ok fs) ->
    forall t m, In t rpt_types -> In m summary_meaning -> exists a b v,
      diagnostic_at (run_summary r) t p0 a /\ diagnostic_at (run_summary r) t p1 b /\ relative_change (snd m a) (snd m b) v /\
      In (diff_name p0 p1 t (fst m), cell_of v) fs.
  Proof.
    intros E t m T M. assert (RS : run_summary r' = run_summary r) by (unfold summary_stats in E; injection E as <- _; reflexivity).
    apply stats_inv in E as (steps0 & steps1 & c0 & c1 & chg0 & chg1 & dis0 & dis1 & v1 & v2 & v3 & v4 & v5 & v6 & diff & _ & _ & _ & _ & _ & _ & _ & _ & B1 & B2 & B3 & B4 & B5 & B6 & D & L & ->).
    rewrite RS in D. unfold summary_diff in D. destruct mapM as [parts|] eqn:MM in D; [|discriminate]. injection D as <-.
    pose proof (mapM_in _ _ _ _ MM T) as (part & IP & EP). pose proof (mapM_in _ _ _ _ EP M) as (x & IX & EX).
    unfold at_pos in EX. unfold diagnostic_at. destruct (py_nth _ p1) as [b|]; [|discriminate]. cbn [bind] in EX. destruct (py_nth _ p0) as [a|]; [|discriminate]. injection EX as <-.
    exists a, b, (relative (snd m a) (snd m b)). split; [reflexivity|]. split; [reflexivity|]. split; [apply relative_is|].
    assert (N : map fst (concat parts) = flat_map (fun t => map (fun m => diff_name p0 p1 t (fst m)) summary_meaning) rpt_types).
    { apply (summary_diff_names p0 p1 (run_summary r)). unfold summary_diff. rewrite MM. reflexivity. }
    assert (LD : length (v1 ++ v2 ++ v3 ++ v4 ++ v5 ++ v6) = length (flat_map (fun q : string * (string * (drec -> num)) => map (fun s => (s ++ "_" ++ fst q)%string) names) diag_meaning)).
    { apply block_seven in B1, B2, B3, B4, B5, B6. rewrite !app_length, B1, B2, B3, B4, B5, B6. unfold expected in L. rewrite app_length in L.
      change (length (flat_map (fun t : string => map (fun m : string * (drow -> num) => diff_name p0 p1 t (fst m)) summary_meaning) rpt_types)) with 12%nat in L. lia. }
    unfold expected. rewrite <- N. replace (v1 ++ v2 ++ v3 ++ v4 ++ v5 ++ v6 ++ map (fun p : string * num => cell_of (snd p)) (concat parts))
      with ((v1 ++ v2 ++ v3 ++ v4 ++ v5 ++ v6) ++ map (fun p : string * num => cell_of (snd p)) (concat parts)) by (rewrite <- !app_assoc; reflexivity).
    assert (CA : forall {A B} (a a' : list A) (b b' : list B), length b = length a -> combine (a ++ a') (b ++ b') = combine a b ++ combine a' b').
    { clear. induction a as [|x a IH]; intros a' [|y b] b' L; try discriminate; [reflexivity|]. cbn. f_equal. apply IH. injection L as L. exact L. }
    rewrite CA by exact LD. apply in_or_app. right.
    assert (J : In (diff_name p0 p1 t (fst m), relative (snd m a) (snd m b)) (concat parts)) by (apply in_concat; exists part; auto).
    clear - J. induction (concat parts) as [|[k w] l IH]; [destruct J|]. cbn. destruct J as [J|J]; [injection J as -> ->; left; reflexivity|right; apply IH; exact J].
  Qed.
  (** The run is accepted exactly when the summary has more cycles of the type than every position. *)
  Theorem C94_accepts type positions r :
    positions <> [] ->
    (summary_stats_valid type positions r = Ok true <->
     run_summary r <> [] /\ forall p, In p positions -> (p < Z.of_nat (length (uniq (map d_cycle (filter (fun d => String.eqb (d_type d) type) (run_summary r))))))%Z).
  Proof.
    intro N. unfold summary_stats_valid. set (n := Z.of_nat _). destruct (run_summary r) as [|u us]; [split; [discriminate|intros [A _]; congruence]|].
    destruct positions as [|p ps]; [congruence|]. cbn [max_z bind].
    assert (G : forall ps p, (fold_left Z.max ps p < n <-> p < n /\ forall q, In q ps -> q < n)%Z).
    { clear. induction ps as [|q ps IH]; intro p; cbn; [tauto|]. rewrite IH, Z.max_lub_lt_iff. split; [intros ((A & B) & C)|intros (A & B)]; [split; [exact A|]; intros x [<-|X]; auto|auto]. }
    split.
    - intros [= E]. apply Z.leb_le in E. split; [discriminate|]. assert (H : (fold_left Z.max ps p < n)%Z) by lia. apply G in H as [A B]. intros q [<-|I]; auto.
    - intros [_ H]. f_equal. apply Z.leb_le. enough ((fold_left Z.max ps p < n)%Z) by lia. apply G. split; [apply H; left; reflexivity|intros q I; apply H; right; exact I].
  Qed.
End C94.

(** ** C95 *)
Lemma hppc_rows_cycle r pos cycle : hppc_cycle (run_data r) pos cycle <->
  exists c, py_nth (uniq (map q_cycle (hppc_rows r))) pos = Some c /\ cycle = in_cycle c (hppc_rows r).
Proof. reflexivity. Qed.
Lemma resistances_inv r pos l : resistances r pos = Ok l -> exists cycle parts, hppc_cycle (run_data r) pos cycle /\ l = concat parts /\
  mapM (fun n : string * (bool * scale) => mapM (fun j => let! v := res_calc cycle j (fst (snd n)) (snd (snd n)) in Ok (resistance_name (fst n) j, v)) (seq 0 9)) kinds = Ok parts.
Proof.
  unfold resistances, at_pos. intro E. destruct (py_nth _ pos) as [c|] eqn:P; [|discriminate]. cbn [bind] in E.
  destruct mapM as [parts|] eqn:M in E; [|discriminate]. injection E as <-. exists (in_cycle c (hppc_rows r)), parts. split; [exists c; split; [exact P|reflexivity]|]. split; [reflexivity|exact M].
Qed.
(** The resistances are named after kind and state of charge, 54 names, all different. *)
Theorem C95_names r pos l : resistances r pos = Ok l -> map fst l = resistance_names /\ length l = 54%nat /\ NoDup (map fst l).
Proof.
  intro E. apply resistances_inv in E as (cycle & parts & _ & -> & M).
  assert (F : map fst (concat parts) = resistance_names).
  { apply (mapM_concat_fst _ (fun k => map (resistance_name (fst k)) (seq 0 9))) in M; [exact M|]. intros k y Y. apply (mapM_fst _ (resistance_name (fst k))) in Y; [exact Y|].
    intros j z Z. destruct res_calc in Z; [|discriminate]. injection Z as <-. reflexivity. }
  split; [exact F|]. split; [rewrite <- (map_length fst), F; reflexivity|]. rewrite F. apply Proofs_Frames.all_distinct_iff. vm_compute. reflexivity.
Qed.
Lemma resistance_of r pos l kind j : resistances r pos = Ok l -> In kind kinds -> (j < 9)%nat ->
  exists cycle v, hppc_cycle (run_data r) pos cycle /\ sget l (resistance_name (fst kind) j) = Some v /\ res_calc cycle j (fst (snd kind)) (snd (snd kind)) = Ok v.
Proof.
  intros E K J. pose proof (C95_names _ _ _ E) as (_ & _ & ND). apply resistances_inv in E as (cycle & parts & C & -> & M).
  pose proof (mapM_in _ _ _ _ M K) as (part & IP & EP). assert (S : In j (seq 0 9)) by (apply in_seq; lia).
  pose proof (mapM_in _ _ _ _ EP S) as (x & IX & EX). cbn beta in EX. destruct (res_calc cycle j (fst (snd kind)) (snd (snd kind))) as [v|] eqn:R; [|discriminate]. injection EX as <-.
  exists cycle, v. split; [exact C|]. split; [|exact R]. apply sget_nodup; [exact ND|]. apply in_concat. exists part. auto.
Qed.
Lemma nth_run_iff cycle s j l : nth_run cycle s j l <-> exists k, nth_error (uniq (map q_counter (in_step s cycle))) j = Some k /\ l = in_counter k cycle.
Proof. reflexivity. Qed.
Lemma kinds_positive kind : In kind kinds -> positive (snd (snd kind)).
Proof. intro I. repeat destruct I as [<-|I]; try destruct I; cbn; try exact Logic.I; lra. Qed.
Lemma cycle_unique data pos a b : hppc_cycle data pos a -> hppc_cycle data pos b -> a = b.
Proof. unfold hppc_cycle. cbv zeta. intros (c & C & ->) (d & D & ->). rewrite C in D. injection D as <-. reflexivity. Qed.
(** If the steps of the hppc cycle come in the order charge, long rest, discharge pulse, short rest,
    charge pulse, the resistance of the [j]th state of charge is the change of the voltage over the
    change of the current, from the end of the [j]th run of the rest (long for discharge, short for
    charge) to the given time into the [j]th run of the pulse.  It is missing if one of them is. *)
Theorem C95_resistance r pos cycle first rest discharge short charge more :
  hppc_cycle (run_data r) pos cycle ->
  uniq (map q_step cycle) = first :: rest :: discharge :: short :: charge :: more ->
  (forall k, measured_well (filter (fun x => Z.eqb (q_counter x) k) cycle)) ->
  exists l, resistances r pos = Ok l /\
  forall kind j, In kind kinds -> (j < 9)%nat ->
  let before := if fst (snd kind) then short else rest in
  let pulse := if fst (snd kind) then charge else discharge in
  exists v, sget l (resistance_name (fst kind) j) = Some v /\
    (forall a b, nth_run cycle before j a -> nth_run cycle pulse j b -> is_resistance a b (snd (snd kind)) v) /\
    ((forall a, ~ nth_run cycle before j a) \/ (forall b, ~ nth_run cycle pulse j b) -> v = None).
Proof.
  intros C U W.
  assert (OK : forall kind j, In kind kinds -> exists v, res_calc cycle j (fst (snd kind)) (snd (snd kind)) = Ok v /\
     (forall a b, nth_run cycle (if fst (snd kind) then short else rest) j a -> nth_run cycle (if fst (snd kind) then charge else discharge) j b -> is_resistance a b (snd (snd kind)) v) /\
     ((forall a, ~ nth_run cycle (if fst (snd kind) then short else rest) j a) \/ (forall b, ~ nth_run cycle (if fst (snd kind) then charge else discharge) j b) -> v = None)).
  { intros kind j K. rewrite (res_calc_runs _ _ _ _ _ _ _ _ _ _ U). pose proof (kinds_positive kind K) as PK. set (s1 := if fst (snd kind) then short else rest). set (s2 := if fst (snd kind) then charge else discharge).
    destruct (nth_error (uniq (map q_counter (in_step s1 cycle))) j) as [k1|] eqn:N1; [destruct (nth_error (uniq (map q_counter (in_step s2 cycle))) j) as [k2|] eqn:N2|].
    - destruct (drop_over_is (in_counter k1 cycle) (in_counter k2 cycle) (snd (snd kind)) (W k1) (W k2) (in_counter_step _ _ _ _ N1) (in_counter_step _ _ _ _ N2) PK) as (v & V & R).
      exists v. split; [exact V|]. split.
      + intros a b A B. destruct (proj1 (nth_run_iff _ _ _ _) A) as (ka & A1 & ->). destruct (proj1 (nth_run_iff _ _ _ _) B) as (kb & B1 & ->). rewrite N1 in A1. rewrite N2 in B1. injection A1 as <-. injection B1 as <-. exact R.
      + intros [H|H]; exfalso; [apply (H (in_counter k1 cycle)); exists k1|apply (H (in_counter k2 cycle)); exists k2]; auto.
    - exists None. split; [reflexivity|]. split; [|reflexivity]. intros a b A B. destruct (proj1 (nth_run_iff _ _ _ _) B) as (kb & B1 & _). congruence.
    - exists None. split; [reflexivity|]. split; [|reflexivity]. intros a b A B. destruct (proj1 (nth_run_iff _ _ _ _) A) as (ka & A1 & _). congruence. }
  assert (EX : exists l, resistances r pos = Ok l).
  { unfold resistances, at_pos. apply hppc_rows_cycle in C as (c & -> & E). cbn [bind]. rewrite <- E.
    assert (T : forall {A B} (f : A -> result B) l, (forall x, In x l -> exists y, f x = Ok y) -> exists r, mapM f l = Ok r).
    { clear. intros A B f. induction l as [|x l IH]; intro H; [exists []; reflexivity|]. destruct (H x (or_introl eq_refl)) as (y & Y). destruct IH as (r & R); [intros z Z; apply H; right; exact Z|].
      exists (y :: r). cbn. rewrite Y, R. reflexivity. }
    assert (M : exists parts, mapM (fun n : string * (bool * scale) => mapM (fun j => let! v := res_calc cycle j (fst (snd n)) (snd (snd n)) in Ok ((fst n ++ "_" ++ str_int (Z.of_nat j))%string, v)) (seq 0 9)) scales = Ok parts).
    { apply T. intros n I. apply T. intros j _. destruct (OK n j I) as (v & -> & _). eexists. reflexivity. }
    destruct M as (parts & ->). eexists. reflexivity. }
  destruct EX as (l & L). exists l. split; [exact L|]. intros kind j K J before pulse.
  destruct (resistance_of _ _ _ _ _ L K J) as (cycle' & v & C' & S & R). rewrite <- (cycle_unique _ _ _ _ C C') in R. destruct (OK kind j K) as (v' & R' & A & B). rewrite R in R'. injection R' as <-.
  exists v. split; [exact S|]. split; [exact A|exact B].
Qed.
(** The origin of time does not matter. *)
Theorem C95_origin_of_time d r pos : resistances {| run_data := map (shift_row d) (run_data r); run_summary := run_summary r; run_protocol := run_protocol r |} pos = resistances r pos.
Proof.
  unfold resistances, hppc_rows, of_type. cbn [run_data]. rewrite !filter_map. change (fun x : drec => String.eqb (q_type (shift_row d x)) "hppc") with (fun x : drec => String.eqb (q_type x) "hppc").
  change (fun x : drec => match q_current (shift_row d x) with Some _ => true | None => false end) with (fun x : drec => match q_current x with Some _ => true | None => false end).
  set (rows := filter _ (filter _ (run_data r))). rewrite map_map. change (fun x => q_cycle (shift_row d x)) with q_cycle. destruct (at_pos (uniq (map q_cycle rows)) pos) as [c|]; [|reflexivity]. cbn [bind].
  assert (I : in_cycle c (map (shift_row d) rows) = map (shift_row d) (in_cycle c rows)) by (unfold in_cycle; rewrite filter_map; reflexivity). rewrite I.
  assert (ME : forall {A B} (f g : A -> result B) l, (forall x, f x = g x) -> mapM f l = mapM g l) by (clear; intros A B f g l H; induction l as [|x l IH]; [reflexivity|]; cbn [mapM]; rewrite H, IH; reflexivity).
  erewrite ME; [reflexivity|]. intro n. apply ME. intro j. rewrite res_calc_shift. reflexivity.
Qed.
(** The features are the changes relative to the first hppc cycle, name by name. *)
Theorem C95_change r pos l : dr_df r pos = Ok l -> exists r0 ri, resistances r 0 = Ok r0 /\ resistances r pos = Ok ri /\ map fst l = resistance_names /\
  forall n, In n resistance_names -> exists a b v, sget r0 n = Some a /\ sget ri n = Some b /\ sget l n = Some v /\ relative_change a b v.
Proof.
  unfold dr_df. intro E. destruct (resistances r 0) as [r0|] eqn:R0; [|discriminate]. cbn [bind] in E. destruct (resistances r pos) as [ri|] eqn:RI; [|discriminate]. injection E as <-.
  exists r0, ri. split; [reflexivity|]. split; [reflexivity|]. destruct (C95_names _ _ _ R0) as (F0 & _ & N0). destruct (C95_names _ _ _ RI) as (FI & _ & NI).
  assert (G : forall (a b : list (string * num)), map fst a = map fst b -> map fst (map (fun p : (string * num) * (string * num) => (fst (fst p), relative (snd (fst p)) (snd (snd p)))) (combine a b)) = map fst a /\
            forall n, In n (map fst a) -> exists x y v, sget a n = Some x /\ sget b n = Some y /\
              sget (map (fun p : (string * num) * (string * num) => (fst (fst p), relative (snd (fst p)) (snd (snd p)))) (combine a b)) n = Some v /\ relative_change x y v).
  { clear. induction a as [|[k x] a IH]; intros [|[k' y] b] E; try discriminate; [split; [reflexivity|intros n []]|]. injection E as <- E. destruct (IH b E) as [I1 I2]. split; [cbn; f_equal; exact I1|].
    intros n I. cbn. destruct (String.eqb_spec n k) as [->|D].
    - exists x, y, (relative x y). repeat split. apply relative_is.
    - destruct I as [I|I]; [cbn in I; congruence|]. apply I2. exact I. }
  destruct (G r0 ri (eq_trans F0 (eq_sym FI))) as [G1 G2]. split; [congruence|]. intros n I. apply G2. rewrite F0. exact I.
Qed.
(** For the first hppc cycle itself they are zero, where known. *)
Theorem C95_first_cycle r l n q : dr_df r 0 = Ok l -> sget l n = Some (Some q) -> q == 0.
Proof.
  intros E S. apply C95_change in E as (r0 & ri & R0 & RI & F & H). rewrite R0 in RI. injection RI as <-.
  assert (I : In n resistance_names). { rewrite <- F. clear - S. induction l as [|[k v] l IH]; [discriminate|]. cbn in *. destruct (String.eqb_spec n k); [left; auto|right; apply IH; exact S]. }
  destruct (H n I) as (a & b & v & A & B & V & C). rewrite A in B. injection B as <-. rewrite S in V. injection V as <-. destruct a as [a|]; [|discriminate].
  destruct C as [C1 C2]. destruct (Qeq_dec a 0) as [Z|Z]; [specialize (C1 Z); discriminate|]. destruct (C2 Z) as (w & W & QE). injection W as <-. rewrite QE. field. exact Z.
Qed.

(** ** C96 *)
Section C96.
  Variables (dir : directory) (skew kurtosis : list num -> num).
  (** The open circuit voltage features describe the changes of the voltage late in the runs of the
      long rest, from the cycle at the position to the first one. *)
  Theorem C96_open_circuit_voltage r pos fs : hppc_ocv skew kurtosis dir r pos = Ok fs ->
    exists cycle0 cycle1 steps0 steps1 s0 s1 v0 v1,
      hppc_cycle (run_data r) 0 cycle0 /\ hppc_cycle (run_data r) pos cycle1 /\
      step_index dir r "hppc" 0 = Ok steps0 /\ step_index dir r "hppc" pos = Ok steps1 /\
      sget steps0 "hppc_long_rest" = Some s0 /\ sget steps1 "hppc_long_rest" = Some s1 /\
      rest_voltages cycle0 s0 v0 /\ rest_voltages cycle1 s1 v1 /\
      map fst fs = ["var_ocv"; "min_ocv"; "mean_ocv"; "skew_ocv"; "kurtosis_ocv"; "sum_ocv"; "sum_square_ocv"]%string /\
      (Forall known v0 -> Forall known v1 -> describes "_ocv" (change v0 v1) skew kurtosis fs).
  Proof.
    unfold hppc_ocv, at_pos, key. intro E. destruct (py_nth _ 0) as [c0|] eqn:P0; [|discriminate E]. cbn [bind] in E.
    destruct (step_index dir r "hppc" 0) as [steps0|] eqn:S0; [|discriminate E]. cbn [bind] in E. destruct (step_index dir r "hppc" pos) as [steps1|] eqn:S1; [|discriminate E]. cbn [bind] in E.
    destruct (sget steps0 _) as [s0|] eqn:G0; [|discriminate E]. cbn [bind] in E. destruct (sget steps1 _) as [s1|] eqn:G1; [|discriminate E]. cbn [bind] in E.
    destruct (ocv_helper (in_cycle c0 (hppc_rows r)) s0) as [v0|] eqn:V0; [|discriminate E]. cbn [bind] in E. destruct (py_nth _ pos) as [c1|] eqn:P1; [|discriminate E]. cbn [bind] in E.
    destruct (ocv_helper (in_cycle c1 (hppc_rows r)) s1) as [v1|] eqn:V1; [|discriminate E]. cbn [bind] in E.
    exists (in_cycle c0 (hppc_rows r)), (in_cycle c1 (hppc_rows r)), steps0, steps1, s0, s1, v0, v1.
    split; [exists c0; split; [exact P0|reflexivity]|]. split; [exists c1; split; [exact P1|reflexivity]|]. do 4 (split; [first [reflexivity|assumption]|]).
    split; [apply ocv_helper_is; exact V0|]. split; [apply ocv_helper_is; exact V1|]. split.
    - unfold seven_features in E. destruct py_min in E; [|discriminate E]. injection E as <-. reflexivity.
    - intros K0 K1. rewrite list_minus_change in E by assumption. apply seven_describes. exact E.
  Qed.
  Variable cubic : list (num * num) -> result (num -> num).
  Notation v_diff := (v_diff skew kurtosis cubic dir).
  (** The points of the first cycle through which the curve goes: all, when the capacity does not fall. *)
  Theorem C96_curve rows : rows <> [] -> (forall r, In r rows -> known (q_qd r)) ->
    (forall a b x y, (exists p q, rows = p ++ a :: b :: q) -> q_qd a = Some x -> q_qd b = Some y -> x <= y) ->
    curve rows = Ok (combine (map q_qd rows) (map q_voltage rows)).
  Proof.
    intros N K R. unfold curve. set (qs := dropna (map q_qd rows)).
    assert (E : map Some qs = map q_qd rows) by (apply dropna_known, Forall_forall; intros x X; apply in_map_iff in X as (r & <- & I); apply K; exact I).
    rewrite E. pose proof (col_max_spec (map q_qd rows)) as MA. pose proof (col_min_spec (map q_qd rows)) as MI.
    destruct (col_max (map q_qd rows)) as [hi|].
    2:{ exfalso. destruct rows as [|r rows]; [congruence|]. specialize (K r (or_introl eq_refl)). destruct (q_qd r) as [x|] eqn:X; [|congruence]. apply (MA x). left. exact X. }
    destruct (col_min (map q_qd rows)) as [lo|].
    2:{ exfalso. destruct MA as [MA _]. exact (MI _ MA). }
    assert (P : lo <= hi) by (apply MA; apply MI). set (eps := (hi - lo) / 10000000).
    assert (EP : 0 <= eps) by (unfold eps; apply Qle_shift_div_l; lra).
    assert (F : forallb (fun b : bool => b) (map (fun d => Qle_bool (- eps) d) (diffs qs)) = true).
    { apply forallb_forall. intros b B. apply in_map_iff in B as (d & <- & D). apply Qle_bool_iff. clear MA MI K N. clearbody qs eps. revert rows R E. induction qs as [|x qs IH]; intros rows R E; [destruct D|].
      destruct qs as [|y qs]; [destruct D|]. destruct rows as [|a [|b rows]]; try discriminate. injection E as A B E. destruct D as [<-|D].
      - specialize (R a b x y (ex_intro _ [] (ex_intro _ rows eq_refl)) (eq_sym A) (eq_sym B)). lra.
      - apply (IH D (b :: rows)); [|cbn; rewrite <- B, <- E; reflexivity]. intros u v z w (p & q & H). apply R. exists (a :: p), q. rewrite H. reflexivity. }
    rewrite F. reflexivity.
  Qed.
  (** The voltage difference features describe the differences between the curve through the records of
      the discharge to the next state of charge at the place asked for, in the first cycle up to a
      capacity of 8, and the voltages of the corresponding discharge of the cycle at the position, at its
      capacities within the range of the curve.  They are left out if the differences vary by more
      than 1.  (That the steps of the later cycle are those of the second diagnostic is a finding.) *)
  Theorem C96_voltage_difference r pos window fs : v_diff r pos window = Ok (Some fs) ->
    exists c0 c1 steps0 steps1 s0 s1 old new lo hi points f,
      let cycles := uniq (map q_cycle (filter (fun r => String.eqb (q_type r) "hppc") (run_data r))) in
      py_nth cycles 0 = Some c0 /\ py_nth cycles pos = Some c1 /\
      step_index dir r "hppc" 0 = Ok steps0 /\ step_index dir r "hppc" 1 = Ok steps1 /\
      sget steps0 "hppc_discharge_to_next_soc" = Some s0 /\ sget steps1 "hppc_discharge_to_next_soc" = Some s1 /\
      run_at (filter (fun r => match q_qd r with Some q => Qlt_bool q 8 | None => false end) (step_records (run_data r) c0 s0)) window (fun _ => True) old /\
      is_least (map q_qd old) lo /\ is_greatest (map q_qd old) hi /\
      run_at (step_records (run_data r) c1 s1) window (fun q => lo < q /\ q < hi) new /\
      curve old = Ok points /\ cubic points = Ok f /\
      map fst fs = ["var_v_diff"; "min_v_diff"; "mean_v_diff"; "skew_v_diff"; "kurtosis_v_diff"; "sum_v_diff"; "sum_square_v_diff"]%string /\
      let fitted := map (fun r => f (q_qd r)) new in
      (Forall known fitted -> Forall known (map q_voltage new) ->
       describes "_v_diff" (change fitted (map q_voltage new)) skew kurtosis fs /\ exists var, sget fs "var_v_diff" = Some (Some var) /\ Qabs var <= 1).
  Proof.
    unfold Model_Hppc.v_diff, at_pos, key. intro E. destruct (py_nth _ pos) as [c1|] eqn:P1; [|discriminate E]. cbn [bind] in E. destruct (py_nth _ 0) as [c0|] eqn:P0; [|discriminate E]. cbn [bind] in E.
    destruct (step_index dir r "hppc" 0) as [steps0|] eqn:S0; [|discriminate E]. cbn [bind] in E. destruct (step_index dir r "hppc" 1) as [steps1|] eqn:S1; [|discriminate E]. cbn [bind] in E.
    destruct (sget steps1 _) as [s1|] eqn:G1; [|discriminate E]. cbn [bind] in E. destruct (sget steps0 _) as [s0|] eqn:G0; [|discriminate E]. cbn [bind] in E. cbv zeta in E.
    assert (D1 : in_step s1 (in_cycle c1 (of_type "hppc" (run_data r))) = step_records (run_data r) c1 s1).
    { unfold in_step, in_cycle, of_type, step_records. rewrite !filter_filter. apply filter_ext. intro x. destruct (String.eqb _ _), (Z.eqb _ _), (Z.eqb _ _); reflexivity. }
    assert (D0 : in_step s0 (filter (fun x => is (fun q => Qlt_bool q 8) (q_qd x)) (in_cycle c0 (of_type "hppc" (run_data r)))) =
                 filter (fun r => match q_qd r with Some q => Qlt_bool q 8 | None => false end) (step_records (run_data r) c0 s0)).
    { unfold in_step, in_cycle, of_type, step_records. rewrite !filter_filter. apply filter_ext. intro x. unfold is. destruct (String.eqb _ _), (Z.eqb _ _), (Z.eqb _ _), (q_qd x); cbn; rewrite ?andb_true_r, ?andb_false_r; reflexivity. }
    rewrite D0, D1 in E. clear D0 D1.
    set (dis0 := filter _ (step_records _ c0 s0)) in *. set (dis1 := step_records _ c1 s1) in *.
    destruct (nth_error (uniq (map q_counter dis0)) window) as [k0|] eqn:K0; [|discriminate E]. destruct (nth_error (uniq (map q_counter dis1)) window) as [k1|] eqn:K1; [|discriminate E].
    set (old := filter _ (in_counter k0 dis0)) in *.
    destruct (curve old) as [points|] eqn:C in E; [|discriminate E]. cbn [bind] in E. destruct (cubic points) as [f|] eqn:F in E; [|discriminate E]. cbn [bind] in E.
    pose proof (col_max_spec (map q_qd old)) as MA. pose proof (col_min_spec (map q_qd old)) as MI.
    assert (R0 : run_at dis0 window (fun _ => True) old).
    { exists k0. split; [exact K0|]. eexists. split; [unfold old, in_counter; rewrite filter_filter; reflexivity|]. intro x. cbn beta. rewrite andb_true_iff, Z.eqb_eq. destruct (q_qd x) as [q|].
      - split; [intros [? ?]; split; [tauto|eauto]|intros [? _]; split; tauto].
      - split; [intros [? ?]; exfalso; intuition discriminate|intros [_ (? & H & _)]; discriminate H]. }
    assert (NE : old <> []) by (intro H; rewrite H in C; discriminate C).
    assert (KN : forall x, In x old -> known (q_qd x)).
    { intros x X. unfold old in X. apply filter_In in X as [_ X]. destruct (q_qd x); [discriminate|discriminate X]. }
    destruct (col_min (map q_qd old)) as [lo|] eqn:LO.
    2:{ exfalso. destruct old as [|x o]; [congruence|]. specialize (KN x (or_introl eq_refl)). destruct (q_qd x) as [q|] eqn:X; [|congruence]. apply (MI q). left. exact X. }
    destruct (col_max (map q_qd old)) as [hi|] eqn:HI.
    2:{ exfalso. destruct MI as [MI _]. exact (MA _ MI). }
    set (new := filter _ (filter _ (in_counter k1 dis1))) in *.
    assert (R1 : run_at dis1 window (fun q => lo < q /\ q < hi) new).
    { exists k1. split; [exact K1|]. eexists. split; [unfold new, in_counter; rewrite !filter_filter; reflexivity|]. intro x. cbn beta. rewrite !andb_true_iff, Z.eqb_eq. destruct (q_qd x) as [q|].
      - rewrite andb_true_iff, !Qlt_bool_iff. split; [intros H; split; [tauto|exists q; tauto]|intros [? (q' & H & ?)]; injection H as <-; tauto].
      - split; [intros H; exfalso; intuition discriminate|intros [_ (? & H & _)]; discriminate H]. }
    exists c0, c1, steps0, steps1, s0, s1, old, new, lo, hi, points, f. cbv zeta. do 6 (split; [first [reflexivity|assumption]|]). split; [exact R0|]. split; [exact MI|]. split; [exact MA|]. split; [exact R1|].
    split; [exact C|]. split; [exact F|].
    destruct (is _ (np_var _)) eqn:V in E; [discriminate E|]. rewrite map_map in E, V.
    destruct (seven_features skew kurtosis "_v_diff" (list_minus (map (fun x => f (q_qd x)) new) (map q_voltage new))) as [x|] eqn:SF; [|discriminate E]. cbn [bind] in E. assert (x = fs) by congruence. subst x. clear E.
    split.
    - unfold seven_features in SF. destruct py_min in SF; [|discriminate SF]. injection SF as <-. reflexivity.
    - intros N1 N2. rewrite list_minus_change in SF, V by assumption. split; [apply seven_describes; exact SF|].
      destruct (seven_describes _ _ _ _ _ SF) as (var & ? & ? & ? & ? & FS & _). unfold seven_features in SF. destruct py_min in SF; [|discriminate SF]. cbn [bind] in SF.
      exists var. split; [rewrite FS; reflexivity|]. rewrite FS in SF. assert (VV : np_var (map Some (change (map (fun x => f (q_qd x)) new) (map q_voltage new))) = Some var) by congruence. rewrite VV in V. cbn [is] in V. apply Qlt_bool_false in V. lra.
  Qed.
  (** The diffusion features are the changes relative to the first hppc cycle. *)
  Variables (sqrt : Q -> Q) (fit : list (num * num) -> result num).
  Definition diffusion_names (n : nat) : list string := map (fun i => ("D_" ++ str_int (Z.of_nat i))%string) (seq 1 (n - 1)).
  Lemma coeff_inv d r pos l : diffusion_coeff sqrt fit d r pos = Ok l ->
    exists c steps s1 s2 n, py_nth (uniq (map q_cycle (of_type "hppc" (run_data r)))) pos = Some c /\ step_index d r "hppc" pos = Ok steps /\
      sget steps "hppc_discharge_pulse" = Some s1 /\ sget steps "hppc_short_rest" = Some s2 /\
      let cycle := by_time (in_cycle c (of_type "hppc" (run_data r))) in
      let k1 := uniq (map q_counter (in_step s1 cycle)) in let k2 := uniq (map q_counter (in_step s2 cycle)) in
      n = Nat.min (Nat.min (length k1) (length k2)) 9 /\ map fst l = diffusion_names n /\
      forall i, (1 <= i < n)%nat -> exists a b v, nth_error k1 i = Some a /\ nth_error k2 i = Some b /\ slope sqrt fit cycle a b = Ok v /\ nth_error l (i - 1) = Some (("D_" ++ str_int (Z.of_nat i))%string, v).
  Proof.
    unfold diffusion_coeff, at_pos. intro E. destruct (py_nth _ pos) as [c|] eqn:P; [|discriminate E]. cbn [bind] in E. destruct (step_index d r "hppc" pos) as [steps|] eqn:S; [|discriminate E]. cbn [bind] in E.
    destruct (mapM (key steps) _) as [ss|] eqn:M in E; [|discriminate E]. cbn [bind] in E.
    pose proof (mapM_nth _ _ _ 1%nat _ M eq_refl) as (s1 & N1 & K1). pose proof (mapM_nth _ _ _ 2%nat _ M eq_refl) as (s2 & N2 & K2).
    unfold key in K1, K2. destruct (sget steps "hppc_discharge_pulse") as [x|] eqn:G1; [|discriminate K1]. injection K1 as ->. destruct (sget steps "hppc_short_rest") as [x|] eqn:G2; [|discriminate K2]. injection K2 as ->.
    cbv zeta in E. rewrite N1, N2 in E. set (cycle := by_time _) in *. set (k1 := uniq (map q_counter (in_step s1 cycle))) in *. set (k2 := uniq (map q_counter (in_step s2 cycle))) in *.
    set (n := Nat.min (Nat.min (length k1) (length k2)) 9) in *. exists c, steps, s1, s2, n. do 4 (split; [first [reflexivity|assumption]|]). cbv zeta. split; [reflexivity|].
    assert (LZ : length (skipn 1 (firstn n (combine k1 k2))) = (n - 1)%nat) by (rewrite skipn_length, firstn_length, combine_length; lia).
    split.
    - apply (mapM_fst _ (fun p : nat * (Z * Z) => ("D_" ++ str_int (Z.of_nat (fst p)))%string)) in E.
      + rewrite E. unfold diffusion_names. rewrite <- (combine_map_fst (seq 1 (n - 1)) (skipn 1 (firstn n (combine k1 k2)))) at 2 by (rewrite seq_length; auto). rewrite map_map. reflexivity.
      + intros p y Y. destruct slope in Y; [|discriminate]. injection Y as <-. reflexivity.
    - intros i [I1 I2]. destruct (nth_error k1 i) as [a|] eqn:A; [|apply nth_error_None in A; lia]. destruct (nth_error k2 i) as [b|] eqn:B; [|apply nth_error_None in B; lia].
      assert (CO : nth_error (combine (seq 1 (n - 1)) (skipn 1 (firstn n (combine k1 k2)))) (i - 1) = Some (i, (a, b))).
      { assert (NC : forall {A B} (u : list A) (w : list B) j x y, nth_error u j = Some x -> nth_error w j = Some y -> nth_error (combine u w) j = Some (x, y)).
        { clear. induction u as [|e u IH]; intros [|f w] [|j] x y X Y; try discriminate; cbn in *; [congruence|]. apply IH; assumption. }
        apply NC.
        - rewrite (nth_error_nth' _ 0%nat) by (rewrite seq_length; lia). rewrite seq_nth by lia. f_equal. lia.
        - assert (SK : forall {A} (u : list A) j, nth_error (skipn 1 u) j = nth_error u (Datatypes.S j)) by (clear; intros A [|e u] j; [destruct j; reflexivity|reflexivity]).
          rewrite SK. replace (Datatypes.S (i - 1)) with i by lia.
          assert (FI : forall {A} (u : list A) m j, (j < m)%nat -> nth_error (firstn m u) j = nth_error u j) by (clear; intros A; induction u as [|e u IH]; intros [|m] [|j] H; try lia; try reflexivity; cbn; apply IH; lia).
          rewrite FI by lia. apply NC; assumption. }
      destruct (mapM_nth _ _ _ _ _ E CO) as (y & Y & F). cbn [fst snd] in F. destruct (slope sqrt fit cycle a b) as [v|] eqn:SL; [|discriminate]. injection F as <-. exists a, b, v. auto.
  Qed.
  Lemma diffusion_names_nodup n : (n <= 9)%nat -> NoDup (diffusion_names n).
  Proof. intro H. do 10 (destruct n as [|n]; [apply Proofs_Frames.all_distinct_iff; vm_compute; reflexivity|]). lia. Qed.
  (** One coefficient for every state of charge but the first that has a discharge pulse and a short
      rest, at most eight: the slope of the relaxation of the voltage after the pulse. *)
  Theorem C96_diffusion_coefficients r pos l : diffusion_coeff sqrt fit dir r pos = Ok l ->
    exists c steps s1 s2 cycle,
      occurrence (run_data r) "hppc" pos c /\ step_index dir r "hppc" pos = Ok steps /\
      sget steps "hppc_discharge_pulse" = Some s1 /\ sget steps "hppc_short_rest" = Some s2 /\
      ordered (filter (fun x => Z.eqb (q_cycle x) c) (filter (fun x => String.eqb (q_type x) "hppc") (run_data r))) cycle /\
      (forall i, (1 <= i < 9)%nat ->
         (forall pulse rest, nth_run cycle s1 i pulse -> nth_run cycle s2 i rest ->
            exists v, sget l ("D_" ++ str_int (Z.of_nat i))%string = Some v /\
              (measured_well pulse -> measured_well rest -> exists points, relaxation sqrt pulse rest points /\ fit (last_third points) = Ok v)) /\
         (sget l ("D_" ++ str_int (Z.of_nat i))%string <> None -> exists pulse rest, nth_run cycle s1 i pulse /\ nth_run cycle s2 i rest)) /\
      exists n, (n <= 9)%nat /\ map fst l = diffusion_names n.
  Proof.
    intro E. apply coeff_inv in E as (c & steps & s1 & s2 & n & P & S & G1 & G2 & H). cbv zeta in H. set (rows := in_cycle c (of_type "hppc" (run_data r))) in *. destruct H as (EN & F & H).
    assert (N9 : (n <= 9)%nat) by lia. exists c, steps, s1, s2, (by_time rows). do 4 (split; [assumption|]). split.
    { split; [apply by_time_perm|]. pose proof (by_time_sorted rows) as SO. clear - SO. induction SO as [|x l' S' IH F']; [constructor|]. constructor; [exact IH|]. eapply Forall_impl; [|exact F'].
      intros y Y s t A B. unfold le_t, time_le in Y. rewrite A, B in Y. apply Qle_bool_iff. exact Y. }
    split; [|exists n; split; assumption]. intros i I. split.
    - intros pulse rest R1 R2. destruct (proj1 (nth_run_iff _ _ _ _) R1) as (a & A & ->). destruct (proj1 (nth_run_iff _ _ _ _) R2) as (b & B & ->).
      assert (IN : (1 <= i < n)%nat).
      { assert (X : (i < length (uniq (map q_counter (in_step s1 (by_time rows)))))%nat) by (apply nth_error_Some; rewrite A; discriminate).
        assert (Y : (i < length (uniq (map q_counter (in_step s2 (by_time rows)))))%nat) by (apply nth_error_Some; rewrite B; discriminate). lia. }
      destruct (H i IN) as (a' & b' & v & A' & B' & SL & NL). rewrite A in A'. injection A' as <-. rewrite B in B'. injection B' as <-. exists v. split.
      + apply sget_nodup; [rewrite F; apply diffusion_names_nodup; exact N9|]. eapply nth_error_In. exact NL.
      + intros W1 W2. unfold slope in SL. cbv zeta in SL. set (pulse := in_counter a (by_time rows)) in *. set (rest := in_counter b (by_time rows)) in *.
        assert (NE : pulse <> [] /\ rest <> []) by (split; [exact (in_counter_step _ _ _ _ A)|exact (in_counter_step _ _ _ _ B)]). destruct NE as [NP NR].
        assert (GM : forall (f : drec -> num) (l : list drec), l <> [] -> (forall x, In x l -> exists t, f x = Some t) -> (exists m, col_max (map f l) = Some m /\ is_greatest (map f l) m) /\ (exists m, col_min (map f l) = Some m /\ is_least (map f l) m)).
        { clear. intros f l N K. destruct l as [|x l]; [congruence|]. destruct (K x (or_introl eq_refl)) as (t & T). pose proof (col_max_spec (map f (x :: l))) as MA. pose proof (col_min_spec (map f (x :: l))) as MI.
          destruct (col_max (map f (x :: l))) as [m|]; [|destruct (MA t); left; exact T]. destruct (col_min (map f (x :: l))) as [m'|]; [|destruct (MI t); left; exact T]. split; [exists m; split; [reflexivity|exact MA]|exists m'; split; [reflexivity|exact MI]]. }
        destruct (GM q_time pulse NP) as [(t1 & E1 & T1) (t0 & E0 & T0)]; [intros x X; destruct (well_in _ _ W1 X) as (t & ? & ? & ? & _); eauto|].
        destruct (GM q_time rest NR) as [_ (start & ES & TS)]; [intros x X; destruct (well_in _ _ W2 X) as (t & ? & ? & ? & _); eauto|].
        destruct (GM q_voltage rest NR) as [_ (low & EL & TL)]; [intros x X; destruct (well_in _ _ W2 X) as (? & v' & ? & ? & ? & _); eauto|].
        rewrite E1, E0, ES, EL in SL. eexists. split; [exists t0, t1, start, low; repeat split; [apply T0|apply T0|apply T1|apply T1|apply TS|apply TS|apply TL|apply TL]|].
        rewrite <- SL. unfold last_third. rewrite !map_length. do 2 f_equal. apply map_ext_in. intros x X. destruct (well_in _ _ W2 X) as (t & v' & ? & -> & -> & _). reflexivity.
    - intro NN. assert (IN : (1 <= i < n)%nat).
      { destruct (sget l ("D_" ++ str_int (Z.of_nat i))%string) as [v|] eqn:SG; [|congruence]. assert (J : In ("D_" ++ str_int (Z.of_nat i))%string (diffusion_names n)).
        { rewrite <- F. apply (sget_keys _ _ _ SG). }
        clear - I J N9. assert (K : In i (seq 1 (n - 1))); [|apply in_seq in K; lia]. unfold diffusion_names in J. apply in_map_iff in J as (k & E & K).
        enough (k = i) by (subst; exact K). apply in_seq in K. clear - E K I N9. assert (k < 9)%nat by lia. clear K N9. destruct I as [I1 I2].
        do 9 (destruct i as [|i]; [try lia; do 9 (destruct k as [|k]; [first [reflexivity|exfalso; vm_compute in E; discriminate E]|]); lia|]). lia. }
      destruct (H i IN) as (a & b & v & A & B & _). exists (in_counter a (by_time rows)), (in_counter b (by_time rows)). split; apply nth_run_iff; eauto.
  Qed.
  (** The features are the changes relative to the first hppc cycle, name by name; missing where one
      of the two cycles has none. *)
  Theorem C96_diffusion_change r pos l : diffusion_features dir sqrt fit r pos = Ok l ->
    exists d0 d, diffusion_coeff sqrt fit dir r 0 = Ok d0 /\ diffusion_coeff sqrt fit dir r pos = Ok d /\
      (forall n, In n (map fst l) <-> In n (map fst d0) \/ In n (map fst d)) /\ NoDup (map fst l) /\
      forall n v, sget l n = Some v -> relative_change (get0 d0 n) (get0 d n) v.
  Proof.
    unfold diffusion_features. intro E. destruct (diffusion_coeff sqrt fit dir r 0) as [d0|] eqn:D0; [|discriminate E]. cbn [bind] in E.
    destruct (diffusion_coeff sqrt fit dir r pos) as [d|] eqn:D; [|discriminate E]. cbn [bind] in E. injection E as <-. exists d0, d. do 2 (split; [reflexivity|]).
    apply coeff_inv in D0 as (? & ? & ? & ? & n0 & _ & _ & _ & _ & EN0 & F0 & _). apply coeff_inv in D as (? & ? & ? & ? & n & _ & _ & _ & _ & EN & F & _).
    assert (N0 : (n0 <= 9)%nat) by lia. assert (N : (n <= 9)%nat) by lia. clear EN0 EN.
    assert (L0 : length d0 = (n0 - 1)%nat) by (rewrite <- (map_length fst), F0; unfold diffusion_names; rewrite map_length, seq_length; reflexivity).
    assert (L : length d = (n - 1)%nat) by (rewrite <- (map_length fst), F; unfold diffusion_names; rewrite map_length, seq_length; reflexivity).
    set (cols := if (length d0 <=? length d)%nat then map fst d else map fst d0).
    assert (INC : forall a b x, (a - 1 <= b - 1)%nat -> In x (diffusion_names a) -> In x (diffusion_names b)).
    { clear. intros a b x L I. apply in_map_iff in I as (i & E & I). apply in_map_iff. exists i. split; [exact E|]. apply in_seq in I. apply in_seq. lia. }
    assert (C : NoDup cols /\ forall x, In x cols <-> In x (map fst d0) \/ In x (map fst d)).
    { unfold cols. rewrite F0, F. destruct (Nat.leb_spec (length d0) (length d)) as [K|K].
      - split; [apply diffusion_names_nodup; exact N|]. intro y. split; [auto|]. intros [I|I]; [|exact I]. apply (INC n0 n); [lia|exact I].
      - split; [apply diffusion_names_nodup; exact N0|]. intro y. split; [auto|]. intros [I|I]; [exact I|]. apply (INC n n0); [lia|exact I]. }
    assert (M : map fst (map (fun k => (k, relative (get0 d0 k) (get0 d k))) cols) = cols) by (rewrite map_map; apply map_id).
    rewrite M. split; [apply C|]. split; [apply C|]. intros k v S. destruct C as [C _]. clear - S. induction cols as [|c cols IH]; [discriminate|]. cbn in S.
    destruct (String.eqb_spec k c) as [->|]; [injection S as <-; apply relative_is|]. apply IH; exact S.
  Qed.
End C96.

(** ** C97 *)
Section C97.
  Variables (dir default_dir : directory) (skew kurtosis : list num -> num) (cubic : list (num * num) -> result (num -> num)) (sqrt : Q -> Q) (fit : list (num * num) -> result num).
  Notation features := (hppc_features dir default_dir skew kurtosis cubic sqrt fit).
  Definition seven_names (suffix : string) : list string := map (fun s => (s ++ suffix)%string) ["var"; "min"; "mean"; "skew"; "kurtosis"; "sum"; "sum_square"]%string.
  Lemma seven_named suffix l fs : seven_features skew kurtosis suffix l = Ok fs -> map fst fs = seven_names suffix.
  Proof. unfold seven_features. destruct py_min; [|discriminate]. injection 1 as <-. reflexivity. Qed.
  (** The columns: the 54 resistances, the open circuit voltage, the voltage difference if there is
      one, and the diffusion coefficients there are. *)
  Theorem C97_columns pos window tf cf r r' fs : features pos window tf cf r = (r', Ok fs) ->
    exists diffs ds, map fst fs = map (fun n => (n ++ "0")%string) resistance_names ++ seven_names "_ocv" ++ diffs ++ ds /\
      (diffs = seven_names "_v_diff" \/ diffs = []) /\ (exists n, (n <= 9)%nat /\ ds = diffusion_names n) /\ NoDup (map fst fs).
  Proof.
    unfold hppc_features. intro X. pose proof (f_equal snd X) as E. cbn [snd] in E. clear X. set (r1 := clean tf cf r) in *. clearbody r1. cbv zeta in E.
    destruct (diffusion_features default_dir sqrt fit r1 pos) as [d|] eqn:D; [|discriminate E]. cbn [bind] in E. destruct (dr_df r1 pos) as [dr|] eqn:DR; [|discriminate E]. cbn [bind] in E.
    destruct (hppc_ocv skew kurtosis dir r1 pos) as [o|] eqn:O; [|discriminate E]. cbn [bind] in E. destruct (v_diff skew kurtosis cubic dir r1 pos window) as [v|] eqn:V; [|discriminate E]. cbn [bind] in E.
    assert (FE : fs = map (fun p : string * num => ((fst p ++ "0")%string, snd p)) dr ++ o ++ match v with Some v => v | None => [] end ++ d) by congruence. clear E.
    exists (map fst (match v with Some v => v | None => [] end)), (map fst d).
    assert (NF : map fst fs = map (fun n => (n ++ "0")%string) resistance_names ++ seven_names "_ocv" ++ map fst (match v with Some v => v | None => [] end) ++ map fst d).
    { rewrite FE, !map_app, map_map. cbn [fst]. apply C95_change in DR as (_ & _ & _ & _ & N & _). rewrite <- N, map_map. apply C96_open_circuit_voltage in O as (? & ? & ? & ? & ? & ? & ? & ? & _ & _ & _ & _ & _ & _ & _ & _ & O & _).
      rewrite O. reflexivity. }
    assert (VN : map fst (match v with Some v => v | None => [] end) = seven_names "_v_diff" \/ map fst (match v with Some v => v | None => [] end) = []).
    { destruct v as [v|]; [left|right; reflexivity]. unfold v_diff in V. repeat (destruct (at_pos _ _) in V; [cbn [bind] in V|discriminate V]).
      repeat (destruct (step_index dir r1 "hppc" _) in V; [cbn [bind] in V|discriminate V]). repeat (destruct (key _ _) in V; [cbn [bind] in V|discriminate V]).
      destruct nth_error in V; [|discriminate V]. destruct nth_error in V; [|discriminate V]. cbv zeta in V. destruct curve in V; [cbn [bind] in V|discriminate V]. destruct cubic in V; [cbn [bind] in V|discriminate V].
      destruct is in V; [discriminate V|]. destruct seven_features as [x|] eqn:SF in V; [|discriminate V]. injection V as <-. exact (seven_named _ _ _ SF). }
    assert (DN : exists n, (n <= 9)%nat /\ map fst d = diffusion_names n).
    { unfold diffusion_features in D. destruct (diffusion_coeff sqrt fit default_dir r1 0) as [a|] eqn:A; [|discriminate D]. cbn [bind] in D. destruct (diffusion_coeff sqrt fit default_dir r1 pos) as [b|] eqn:B; [|discriminate D]. cbn [bind] in D.
      assert (DE : d = map (fun k => (k, relative (get0 a k) (get0 b k))) (if (length a <=? length b)%nat then map fst b else map fst a)) by congruence.
      apply C96_diffusion_coefficients in A as (? & ? & ? & ? & ? & _ & _ & _ & _ & _ & _ & n & N & A). apply C96_diffusion_coefficients in B as (? & ? & ? & ? & ? & _ & _ & _ & _ & _ & _ & m & M & B).
      rewrite DE, map_map. cbn [fst]. rewrite map_id. destruct (_ <=? _)%nat; [exists m|exists n]; auto. }
    split; [exact NF|]. split; [exact VN|]. split; [exact DN|]. rewrite NF. destruct DN as (n & N & ->).
    destruct VN as [-> | ->]; (do 10 (destruct n as [|n]; [apply Proofs_Frames.all_distinct_iff; vm_compute; reflexivity|])); lia.
  Qed.
  (** What becomes of the run is the same as for the other features. *)
  Theorem C97_what_is_kept pos window tf cf r r' fs : features pos window tf cf r = (r', fs) ->
    what_is_kept tf cf (run_data r) (run_data r') /\ run_summary r' = run_summary r /\ run_protocol r' = run_protocol r /\ features pos window tf cf r' = (r', fs).
  Proof.
    unfold hppc_features. intro X. pose proof (f_equal fst X) as A. pose proof (f_equal snd X) as B. cbn [fst snd] in A, B. subst r'. rewrite clean_clean. split; [apply clean_kept|]. split; [reflexivity|]. split; [reflexivity|].
    rewrite <- B. reflexivity.
  Qed.
  (** A run is accepted exactly when some cycle of its diagnostic summary is an hppc cycle. *)
  Theorem C97_accepts r : hppc_valid r = true <-> exists d a b, In d (run_summary r) /\ d_type d = (a ++ "hppc" ++ b)%string.
  Proof.
    unfold hppc_valid. destruct (run_summary r) as [|u us] eqn:E; [split; [discriminate|intros (d & ? & ? & [] & _)]|]. rewrite existsb_exists. split.
    - intros (d & I & C). apply Proofs_Diagnostic.contains_iff in C as (a & b & C). eauto.
    - intros (d & a & b & I & C). exists d. split; [exact I|]. apply Proofs_Diagnostic.contains_iff. eauto.
  Qed.
End C97.
(** The fraction that remains: for each diagnostic of the type after cycle 100, its quantity over that of
    the first diagnostic of all. *)
Theorem C97_fraction metric type summary fs f first rest :
  d_quantity metric = Ok f -> summary = first :: rest -> fractional_remaining metric type summary = Ok fs ->
  Forall2 (fun d p => fst p = d_cycle d /\ match f d, f first with
                                           | Some x, Some y => (y == 0 -> snd p = None) /\ (~ y == 0 -> exists q, snd p = Some q /\ q == x / y)
                                           | _, _ => snd p = None end)
    (filter (fun d => String.eqb (d_type d) type && (100 <? d_cycle d)%Z) summary) fs.
Proof.
  intros QM -> E. unfold fractional_remaining in E. rewrite QM in E. cbn [bind] in E. set (l := filter _ (first :: rest)) in *. clearbody l.
  assert (FE : fs = map (fun d => (d_cycle d, ndiv (f d) (f first))) l) by congruence. subst fs. clear E. induction l as [|d l IH]; cbn [map]; constructor; [|exact IH]. cbn [fst snd]. split; [reflexivity|].
  unfold ndiv. destruct (f d) as [x|], (f first) as [y|]; try reflexivity. destruct (Qeq_bool y 0) eqn:Z.
  - apply Qeq_bool_iff in Z. split; [reflexivity|contradiction].
  - apply Qeq_bool_neq in Z. split; [contradiction|]. intros _. eexists. split; reflexivity.
Qed.

(** ** Cases and findings *)
(** [n] records of one run of a step, [dt] apart, the voltage falling by [dv] and the capacity rising by [dq] *)
Definition some_records (c : Z) (type : string) (s k : Z) (i t0 dt v dv q dq : Q) (n : nat) : list drec :=
  map (fun j => let x := inject_Z (Z.of_nat j) in
    {| q_base := {| h_cycle := c; h_type := type; h_step := s; h_counter := k; h_current := Some i; h_time := Some (t0 + x * dt) |};
       q_voltage := Some (v - x * dv); q_qc := Some (q + x * dq); q_qd := Some (q + x * dq); q_ec := Some (q + x * dq); q_ed := Some (q + x * dq);
       q_dqc := Some (q + x); q_dqd := Some (q + x) |}) (seq 0 n).
(** one state of charge of an hppc cycle: long rest, discharge pulse, short rest, charge pulse, discharge *)
Definition a_window (c b k : Z) (t v q : Q) : list drec :=
  some_records c "hppc" (b + 2) (k + 1) 0 t 400 v (1 # 100) q 0 10 ++
  some_records c "hppc" (b + 3) (k + 2) (-5) (t + 3601) 10 (v - (2 # 10)) (1 # 100) q (1 # 100) 4 ++
  some_records c "hppc" (b + 4) (k + 3) 0 (t + 3632) 20 (v - (1 # 10)) (1 # 100) q 0 3 ++
  some_records c "hppc" (b + 5) (k + 4) 4 (t + 3673) 5 (v + (1 # 10)) (1 # 100) q 0 3 ++
  some_records c "hppc" (b + 6) (k + 5) (-2) (t + 3684) 340 v (1 # 10) q (1 # 10) 4.
Definition an_hppc_cycle (c b : Z) (t v : Q) : list drec :=
  some_records c "hppc" (b + 1) 1 2 t 4000 v (- (1 # 10)) 0 0 2 ++ a_window c b 1 (t + 5000) (v + (1 # 10)) 1 ++ a_window c b 6 (t + 10000) v 2 ++
  some_records c "hppc" (b + 7) 12 (-1) (t + 20000) 100 v (1 # 10) 3 (1 # 10) 2.
Definition three_hppc : run :=
  {| run_data := an_hppc_cycle 2 10 0 4 ++ an_hppc_cycle 37 20 3000000 (39 # 10) ++ an_hppc_cycle 142 40 14000000 (38 # 10);
     run_summary := [{| d_cycle := 2; d_type := "hppc"; d_dis := Some 5; d_dis_en := Some 18; d_chg := Some 5; d_chg_en := Some 19; d_epoch := None |}];
     run_protocol := "PreDiag\PreDiag_000240.000" |}.
Definition one_file : directory := [("PreDiag_parameters.csv"%string, Some with_diagnostics)].
Definition no_fit (l : list (num * num)) : result num := match l with [] => Err TypeError | (_, y) :: _ => Ok y end.
Definition no_cubic (l : list (num * num)) : result (num -> num) := Ok (fun _ => match l with (_, y) :: _ => y | [] => None end).
Definition no_moment (l : list num) : num := None.
Example hppc_run_case : clean 1000000 6 three_hppc = three_hppc /\ hppc_valid three_hppc = true /\
  (exists steps, step_index one_file three_hppc "hppc" 1 = Ok steps /\ sget steps "hppc_discharge_to_next_soc" = Some 26%Z) /\
  exists fs, hppc_features one_file one_file no_moment no_moment no_cubic (fun x => x) no_fit 1 0 1000000 6 three_hppc = (three_hppc, Ok fs) /\ length fs = 69%nat.
Proof.
  split; [vm_compute; reflexivity|]. split; [reflexivity|]. split; [eexists; split; vm_compute; reflexivity|]. eexists. split; [vm_compute; reflexivity|reflexivity].
Qed.
Example C95_case : exists cycle first rest discharge short charge more l, hppc_cycle (run_data three_hppc) 1 cycle /\
  uniq (map q_step cycle) = first :: rest :: discharge :: short :: charge :: more /\
  (forall k, measured_well (filter (fun x => Z.eqb (q_counter x) k) cycle)) /\
  resistances three_hppc 1 = Ok l /\ sget l (resistance_name "r_d_end" 1) <> None /\ exists a b, nth_run cycle rest 1 a /\ nth_run cycle discharge 1 b.
Proof.
  exists (an_hppc_cycle 37 20 3000000 (39 # 10)). do 7 eexists. split; [exists 37%Z; split; vm_compute; reflexivity|]. split; [vm_compute; reflexivity|]. split.
  - intro k. apply chron_well. vm_compute. reflexivity.
  - split; [vm_compute; reflexivity|]. split; [vm_compute; discriminate|]. do 2 eexists. split; eexists; (split; [vm_compute; reflexivity|reflexivity]).
Qed.
(** ** C94: cases and findings *)
Definition an_rpt (c : Z) (type : string) (b : Z) (t q dq : Q) : list drec :=
  some_records c type (b + 1) 1 1 t 100 4 0 q dq 3 ++ some_records c type (b + 2) 2 (-1) (t + 1000) 100 4 0 q (2 * dq) 3.
Definition a_row (c : Z) (type : string) (q : Q) : drow :=
  {| d_cycle := c; d_type := type; d_dis := Some q; d_dis_en := Some (3 * q); d_chg := Some (q + 1); d_chg_en := Some 0; d_epoch := None |}.
(** cycles 3 and 38; at the end another cycle numbered 3, which is not to count *)
Definition two_rpt (others : list drow) : run :=
  {| run_data := an_rpt 3 "rpt_0.2C" 20 0 1 1 ++ an_rpt 38 "rpt_0.2C" 50 3000000 2 2 ++ an_rpt 3 "rpt_0.2C" 20 9000000 3 3;
     run_summary := [a_row 3 "rpt_0.2C" 5; a_row 38 "rpt_0.2C" 4] ++ others; run_protocol := "PreDiag\PreDiag_000240.000" |}.
Definition all_rpt : run := two_rpt [a_row 4 "rpt_1C" 5; a_row 5 "rpt_2C" 4; a_row 39 "rpt_1C" 3; a_row 40 "rpt_2C" 2].
Example C94_case log10 skew kurtosis : summary_stats_valid "rpt_0.2C" [0; 1]%Z all_rpt = Ok true /\
  exists fs r', summary_stats one_file log10 skew kurtosis "rpt_0.2C" 0 1 supported 1000000 6 all_rpt = (r', Ok fs) /\ length fs = 54%nat /\
  values_in (run_data r') 38 51 q_qc = [Some (2 + 0 * 2); Some (2 + 1 * 2); Some (2 + 2 * 2)] /\ length (values_in (run_data r') 3 21 q_qc) = 3%nat /\
  (exists v, In (diff_name 0 1 "rpt_1C" "discharge_capacity", Number v) fs /\ v == - (2 # 5)) /\
  (exists r, In r (run_data all_rpt) /\ late 1000000 6 r) /\ (length (run_data r') < length (run_data all_rpt))%nat.
Proof.
  split; [reflexivity|]. do 2 eexists. split; [vm_compute; reflexivity|]. split; [reflexivity|]. split; [vm_compute; reflexivity|]. split; [reflexivity|]. split; [|split].
  - eexists. split; [do 46 right; left; vm_compute; reflexivity|vm_compute; reflexivity].
  - eexists. split; [do 12 right; left; reflexivity|]. split; [reflexivity|]. eexists. split; reflexivity.
  - vm_compute. repeat constructor.
Qed.
(** A run that is accepted has features if its steps can be told apart, have equally many points and
    some change that is known, and if there are diagnostics of the three types at both positions. *)
Theorem C94_accepted_partial dir log10 skew kurtosis type p0 p1 tf cf r steps0 steps1 c0 c1 :
  summary_stats_valid type [p0; p1] r = Ok true ->
  let r' := clean tf cf r in
  step_index dir r' type p0 = Ok steps0 -> step_index dir r' type p1 = Ok steps1 ->
  occurrence (run_data r') type p0 c0 -> occurrence (run_data r') type p1 c1 ->
  (forall q, In q diag_meaning -> exists s0 s1, sget steps0 (type ++ fst (snd q))%string = Some s0 /\ sget steps1 (type ++ fst (snd q))%string = Some s1 /\
     length (values_in (run_data r') c1 s1 (snd (snd q))) = length (values_in (run_data r') c0 s0 (snd (snd q))) /\
     change (values_in (run_data r') c1 s1 (snd (snd q))) (values_in (run_data r') c0 s0 (snd (snd q))) <> []) ->
  (forall t, In t rpt_types -> exists a b, diagnostic_at (run_summary r) t p0 a /\ diagnostic_at (run_summary r) t p1 b) ->
  exists fs, summary_stats dir log10 skew kurtosis type p0 p1 supported tf cf r = (r', Ok fs).
Proof.
  intros _ r' S0 S1 O0 O1 H D. unfold summary_stats. fold r'. cbv zeta. rewrite S0, S1. cbn [bind]. unfold occurrence in O0, O1. fold (of_type type (run_data r')) in O0, O1.
  unfold at_pos at 1 2. rewrite O0, O1. cbn [bind].
  assert (B : forall q, In q diag_meaning -> exists s0 s1, sget steps0 (type ++ fst (snd q))%string = Some s0 /\ sget steps1 (type ++ fst (snd q))%string = Some s1 /\
                exists v, change_block log10 skew kurtosis supported (snd (snd q)) (run_data r') c0 s0 c1 s1 = Ok v).
  { intros q I. destruct (H q I) as (s0 & s1 & G0 & G1 & L & N). exists s0, s1. split; [exact G0|]. split; [exact G1|]. unfold change_block, in_step, in_cycle. rewrite !filter_filter.
    fold (values_in (run_data r') c1 s1 (snd (snd q))). fold (values_in (run_data r') c0 s0 (snd (snd q))). rewrite (np_sub_same _ _ L). cbn [bind]. rewrite dropna_change, all_supported.
    destruct (change _ _) as [|x l]; [congruence|]. eexists. reflexivity. }
  clear H. pose proof (fun q I => B q I) as B'. clear B.
  destruct (B' _ (or_introl eq_refl)) as (a0 & a1 & A0 & A1 & v1 & V1). destruct (B' _ (or_intror (or_introl eq_refl))) as (b0 & b1 & B0 & B1 & v2 & V2).
  destruct (B' _ (or_intror (or_intror (or_introl eq_refl)))) as (d0 & d1 & D0 & D1 & v3 & V3). destruct (B' _ (or_intror (or_intror (or_intror (or_introl eq_refl))))) as (e0 & e1 & E0 & E1 & v4 & V4).
  destruct (B' _ (or_intror (or_intror (or_intror (or_intror (or_introl eq_refl)))))) as (f0 & f1 & F0 & F1 & v5 & V5). destruct (B' _ (or_intror (or_intror (or_intror (or_intror (or_intror (or_introl eq_refl))))))) as (g0 & g1 & G0 & G1 & v6 & V6).
  cbn [fst snd] in *. rewrite A0 in D0, F0. injection D0 as <-. injection F0 as <-. rewrite A1 in D1, F1. injection D1 as <-. injection F1 as <-.
  rewrite B0 in E0, G0. injection E0 as <-. injection G0 as <-. rewrite B1 in E1, G1. injection E1 as <-. injection G1 as <-.
  unfold key. rewrite A0, A1, B0, B1. cbn [bind]. rewrite V1, V2, V3, V4, V5, V6. cbn [bind].
  assert (SD : exists diff, summary_diff p0 p1 (run_summary r') = Ok diff).
  { change (run_summary r') with (run_summary r). unfold summary_diff, diff_types, at_pos. cbn [mapM diff_metrics].
    destruct (D _ (or_introl eq_refl)) as (x1 & y1 & X1 & Y1). destruct (D _ (or_intror (or_introl eq_refl))) as (x2 & y2 & X2 & Y2). destruct (D _ (or_intror (or_intror (or_introl eq_refl)))) as (x3 & y3 & X3 & Y3).
    unfold diagnostic_at in *. rewrite X1, Y1, X2, Y2, X3, Y3. eexists. reflexivity. }
  destruct SD as (diff & SD). rewrite SD. cbn [bind]. rewrite (summary_diff_names _ _ _ _ SD). eexists. reflexivity.
Qed.
(** Finding: a run is accepted although it has no diagnostics of the other types. *)
Theorem C94_accepted_refuted log10 skew kurtosis : exists r, summary_stats_valid "rpt_0.2C" [0; 1]%Z r = Ok true /\
  snd (summary_stats one_file log10 skew kurtosis "rpt_0.2C" 0 1 supported 1000000 6 r) = Err IndexError.
Proof. exists (two_rpt [a_row 4 "rpt_1C" 5; a_row 39 "rpt_1C" 3]). split; vm_compute; reflexivity. Qed.
(** Finding: the features depend on what was computed from the run before, as featurizing drops records of it. *)
Theorem C94_run_changed_refuted log10 skew kurtosis : exists r r' fs fs',
  fst (summary_stats one_file log10 skew kurtosis "rpt_0.2C" 0 1 supported 1000000 6 r) = r' /\
  snd (summary_stats one_file log10 skew kurtosis "rpt_0.2C" 0 1 supported 1000000 0 r) = fs /\
  snd (summary_stats one_file log10 skew kurtosis "rpt_0.2C" 0 1 supported 1000000 0 r') = fs' /\ fs <> fs'.
Proof. exists all_rpt. do 3 eexists. split; [vm_compute; reflexivity|]. split; [vm_compute; reflexivity|]. split; [vm_compute; reflexivity|]. discriminate. Qed.

(** ** C95: findings *)
(** Finding: after a state of charge at which the charge pulse is skipped, the resistance is taken
    between a rest and a pulse at different states of charge. *)
Definition skipped : list drec := filter (fun r => negb (Z.eqb (q_counter r) 5)) (an_hppc_cycle 2 10 0 4).
Theorem C95_skipped_pulse_refuted : exists earlier rest pulse v v',
  nth_run skipped 14 0 earlier /\ nth_run skipped 14 1 rest /\ nth_run skipped 15 0 pulse /\
  (forall a b p, In a earlier -> In b rest -> In p pulse -> before a b /\ before b p) /\
  res_calc skipped 0 true End = Ok (Some v) /\ is_resistance rest pulse End (Some v') /\ ~ v == v'.
Proof.
  do 5 eexists. split; [eexists; split; [vm_compute; reflexivity|reflexivity]|]. split; [eexists; split; [vm_compute; reflexivity|reflexivity]|]. split; [eexists; split; [vm_compute; reflexivity|reflexivity]|].
  split.
  - intros a b p A B P. cbn in A, B, P.
    repeat destruct A as [<-|A]; try destruct A; repeat destruct B as [<-|B]; try destruct B; repeat destruct P as [<-|P]; try destruct P; (split; do 2 eexists; (split; [reflexivity|]); (split; [reflexivity|]); reflexivity).
  - split; [vm_compute; reflexivity|].
    assert (W : forall f, measured_well (filter f skipped)) by (apply chron_well; vm_compute; reflexivity).
    match goal with |- is_resistance ?a ?b _ _ /\ _ => destruct (drop_over_is a b End) as (v & V & R); [apply W|apply W|vm_compute; discriminate|vm_compute; discriminate|exact Logic.I|] end.
    vm_compute in V. injection V as <-. split; [exact R|]. vm_compute. discriminate.
Qed.
(** Finding: the rests and pulses are found by their place among the steps, not by what they are.
    Without the initial charge the "resistance" is taken between the pulse and the short rest. *)
Theorem C95_place_refuted : let cycle := filter (fun r => negb (Z.eqb (q_step r) 11)) (an_hppc_cycle 2 10 0 4) in
  exists v rest pulse v', res_calc cycle 0 false End = Ok (Some v) /\ nth_run cycle 12 0 rest /\ nth_run cycle 13 0 pulse /\
  (exists steps, get_step_index one_file "PreDiag\PreDiag_000240.000" (map q_base cycle) "hppc" 0 = Ok steps /\ sget steps "hppc_long_rest" = Some 12%Z /\ sget steps "hppc_discharge_pulse" = Some 13%Z) /\
  is_resistance rest pulse End (Some v') /\ ~ v == v'.
Proof.
  intro cycle. do 4 eexists. split; [vm_compute; reflexivity|]. split; [eexists; split; [vm_compute; reflexivity|reflexivity]|]. split; [eexists; split; [vm_compute; reflexivity|reflexivity]|].
  split; [eexists; split; [vm_compute; reflexivity|split; reflexivity]|].
  assert (W : forall f, measured_well (filter f cycle)) by (apply chron_well; vm_compute; reflexivity).
  match goal with |- is_resistance ?a ?b _ _ /\ _ => destruct (drop_over_is a b End) as (v & V & R); [apply W|apply W|vm_compute; discriminate|vm_compute; discriminate|exact Logic.I|] end.
  vm_compute in V. injection V as <-. split; [exact R|]. vm_compute. discriminate.
Qed.

(** ** C96: findings *)
(** Finding: the voltage of a rest is documented as the mean of its last five or ten records; it is the
    single tenth record from the end. *)
Theorem C96_mean_refuted : exists cycle v five ten,
  hppc_cycle (run_data three_hppc) 0 cycle /\ (exists vs, ocv_helper cycle 12 = Ok (Some v :: vs)) /\
  nth_run cycle 12 0 ten /\ last_five ten five /\ length ten = 10%nat /\ ~ v == average (dropna (map q_voltage five)) /\ ~ v == average (dropna (map q_voltage ten)).
Proof.
  do 4 eexists. split; [eexists; split; [vm_compute; reflexivity|reflexivity]|]. split; [eexists; vm_compute; reflexivity|]. split; [eexists; split; [vm_compute; reflexivity|reflexivity]|].
  split.
  - match goal with |- last_five ?t _ => exists t, (firstn 5 t) end. split; [split; [reflexivity|apply chron_sorted; vm_compute; reflexivity]|].
    split; [symmetry; apply firstn_skipn|]. split; [vm_compute; repeat constructor|left; reflexivity].
  - split; [reflexivity|]. split; vm_compute; discriminate.
Qed.
(** Finding: a rest of fewer than ten records makes the whole featurization fail. *)
Theorem C96_short_rest_refuted skew kurtosis : exists r rest, hppc_valid r = true /\
  (exists cycle, hppc_cycle (run_data r) 0 cycle /\ nth_run cycle 12 0 rest /\ length rest = 9%nat) /\
  hppc_ocv skew kurtosis one_file r 1 = Err IndexError.
Proof.
  exists {| run_data := firstn 2 (run_data three_hppc) ++ skipn 3 (run_data three_hppc); run_summary := run_summary three_hppc; run_protocol := run_protocol three_hppc |}.
  eexists. split; [reflexivity|]. split; [|vm_compute; reflexivity]. eexists. split; [eexists; split; [vm_compute; reflexivity|reflexivity]|]. split; [eexists; split; [vm_compute; reflexivity|reflexivity]|reflexivity].
Qed.
(** Finding: the steps of the later cycle are always those of the second diagnostic.  In the third
    diagnostic, whose steps have other numbers, no voltage difference is found although it is there. *)
Theorem C96_voltage_difference_refuted skew kurtosis cubic :
  (exists fs, v_diff skew kurtosis (fun _ => Ok (fun x => x)) one_file three_hppc 1 0 = Ok (Some fs)) /\
  (exists steps s run, step_index one_file three_hppc "hppc" 2 = Ok steps /\ sget steps "hppc_discharge_to_next_soc" = Some s /\ nth_run (an_hppc_cycle 142 40 14000000 (38 # 10)) s 0 run /\ run <> []) /\
  v_diff skew kurtosis cubic one_file three_hppc 2 0 = Ok None.
Proof.
  split; [eexists; vm_compute; reflexivity|]. split; [|vm_compute; reflexivity]. do 3 eexists. split; [vm_compute; reflexivity|]. split; [vm_compute; reflexivity|]. split; [eexists; split; [vm_compute; reflexivity|reflexivity]|vm_compute; discriminate].
Qed.
(** Finding: when the capacity falls once, the points after which it rises are dropped, not that point. *)
Theorem C96_falling_refuted : exists rows, map q_qd rows = [Some 1; Some 2; Some (3 # 2); Some 3] /\ curve rows = Ok [(Some 2, Some 11); (Some 3, Some 13)].
Proof.
  exists (map (fun p => {| q_base := {| h_cycle := 2; h_type := "hppc"; h_step := 16; h_counter := 6; h_current := Some (-2); h_time := Some (fst p) |};
                           q_voltage := Some (fst p); q_qc := None; q_qd := Some (snd p); q_ec := None; q_ed := None; q_dqc := None; q_dqd := None |}) [(10, 1); (11, 2); (12, 3 # 2); (13, 3)]).
  split; vm_compute; reflexivity.
Qed.
Example C96_curve_case : exists rows, curve rows = Ok (combine (map q_qd rows) (map q_voltage rows)) /\ length rows = 4%nat.
Proof. exists (some_records 2 "hppc" 16 6 (-2) 0 340 4 (1 # 10) 1 (1 # 10) 4). split; vm_compute; reflexivity. Qed.
Example C96_case : exists steps0 s0 v0 cycle0 fs, step_index one_file three_hppc "hppc" 0 = Ok steps0 /\ sget steps0 "hppc_long_rest" = Some s0 /\
  hppc_cycle (run_data three_hppc) 0 cycle0 /\ ocv_helper cycle0 s0 = Ok v0 /\ length v0 = 2%nat /\ Forall known v0 /\ hppc_ocv no_moment no_moment one_file three_hppc 1 = Ok fs.
Proof.
  do 5 eexists. split; [vm_compute; reflexivity|]. split; [vm_compute; reflexivity|]. split; [eexists; split; [vm_compute; reflexivity|reflexivity]|]. split; [vm_compute; reflexivity|].
  split; [reflexivity|]. split; [repeat constructor; discriminate|vm_compute; reflexivity].
Qed.
Example C96_diffusion_case : exists l, diffusion_coeff (fun x => x) no_fit one_file three_hppc 1 = Ok l /\ map fst l = ["D_1"]%string.
Proof. eexists. split; vm_compute; reflexivity. Qed.

(** ** C97: findings *)
(** Finding: the directory of parameter files that is given is not used for the diffusion features. *)
Theorem C97_directory_refuted skew kurtosis cubic sqrt fit : exists r, hppc_valid r = true /\
  (exists fs, snd (hppc_features one_file one_file no_moment no_moment no_cubic (fun x => x) no_fit 1 0 1000000 6 r) = Ok fs) /\
  snd (hppc_features one_file [] skew kurtosis cubic sqrt fit 1 0 1000000 6 r) = Err TypeError.
Proof. exists three_hppc. split; [reflexivity|]. split; [eexists|]; vm_compute; reflexivity. Qed.
(** Finding: runs that are accepted have different columns. *)
Theorem C97_columns_refuted : exists r r' fs fs', hppc_valid r = true /\ hppc_valid r' = true /\
  snd (hppc_features one_file one_file no_moment no_moment no_cubic (fun x => x) no_fit 1 1 1000000 6 r) = Ok fs /\
  snd (hppc_features one_file one_file no_moment no_moment no_cubic (fun x => x) no_fit 1 1 1000000 6 r') = Ok fs' /\
  In "mean_v_diff"%string (map fst fs) /\ ~ In "mean_v_diff"%string (map fst fs').
Proof.
  exists three_hppc, {| run_data := filter (fun r => negb (Z.eqb (q_cycle r) 37 && Z.eqb (q_counter r) 11)) (run_data three_hppc); run_summary := run_summary three_hppc; run_protocol := run_protocol three_hppc |}.
  do 2 eexists. split; [reflexivity|]. split; [reflexivity|]. split; [vm_compute; reflexivity|]. split; [vm_compute; reflexivity|]. split.
  - do 63 right. left. reflexivity.
  - intro I. repeat (destruct I as [I|I]; [discriminate I|]). destruct I.
Qed.
(** Finding: the fraction is of the first diagnostic of any type, here a reset of lower capacity, not of
    the first of the type that is asked for. *)
Theorem C97_fraction_refuted : exists summary a q, diagnostic_at summary "rpt_0.2C" 0 a /\ d_dis a = Some 5 /\
  fractional_remaining "discharge_capacity" "rpt_0.2C" summary = Ok [(142%Z, Some q)] /\ q == 1 /\ ~ q == 4 / 5.
Proof.
  exists [a_row 1 "reset" 4; a_row 3 "rpt_0.2C" 5; a_row 38 "rpt_0.2C" 5; a_row 142 "rpt_0.2C" 4]. do 2 eexists. split; [vm_compute; reflexivity|]. split; [reflexivity|]. split; [vm_compute; reflexivity|].
  split; [reflexivity|]. vm_compute. discriminate.
Qed.
Example C97_fraction_case : exists f, d_quantity "discharge_capacity" = Ok f /\ exists fs, fractional_remaining "discharge_capacity" "rpt_0.2C" [a_row 1 "reset" 4; a_row 142 "rpt_0.2C" 3] = Ok fs /\ length fs = 1%nat.
Proof. eexists. split; [reflexivity|]. eexists. split; vm_compute; reflexivity. Qed.

Print Assumptions C94_what_is_kept.
Print Assumptions C94_again.
Print Assumptions C94_names.
Print Assumptions C94_statistics.
Print Assumptions C94_summary_change.
Print Assumptions C94_accepts.
Print Assumptions C95_names.
Print Assumptions C95_resistance.
Print Assumptions C95_origin_of_time.
Print Assumptions C95_change.
Print Assumptions C95_first_cycle.
Print Assumptions C96_open_circuit_voltage.
Print Assumptions C96_curve.
Print Assumptions C96_voltage_difference.
Print Assumptions C96_diffusion_coefficients.
Print Assumptions C96_diffusion_change.
Print Assumptions C97_columns.
Print Assumptions C97_what_is_kept.
Print Assumptions C97_accepts.
Print Assumptions C97_fraction.
Print Assumptions C94_accepted_partial.
Print Assumptions C94_accepted_refuted.
Print Assumptions C94_run_changed_refuted.
Print Assumptions C95_skipped_pulse_refuted.
Print Assumptions C95_place_refuted.
Print Assumptions C96_mean_refuted.
Print Assumptions C96_short_rest_refuted.
Print Assumptions C96_voltage_difference_refuted.
Print Assumptions C96_falling_refuted.
Print Assumptions C97_directory_refuted.
Print Assumptions C97_columns_refuted.
Print Assumptions C97_fraction_refuted.

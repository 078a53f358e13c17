(** C82: the statistics of the change between two cycles.  C83: the fast charge features.
    C84: a run that a featurizer accepts can be featurized. *)
From Verif Require Import Py Num Model_Summary Model_Features Model_Stats Spec_Stats Proofs_Stats.

Section C82.
  (** any logarithm, skewness and kurtosis *)
  Variables (log10 : Q -> cell) (skew kurtosis : list num -> num).
  Notation stats := (cycle_summary_stats log10 skew kurtosis).

  (** The features are named after every statistic of every quantity. *)
  Theorem C82_names names first second data fs :
    stats names first second data = Ok fs ->
    map fst fs = flat_map (fun q => map (fun s => (s ++ "_" ++ fst q)%string) names) meaning.
  Proof.
    unfold cycle_summary_stats. intro E.
    destruct (block log10 skew kurtosis names first second "charge" r_qc data) as [a|] eqn:A; [|discriminate].
    destruct (block log10 skew kurtosis names first second "discharge" r_qd data) as [b|] eqn:B; [|discriminate].
    destruct (block log10 skew kurtosis names first second "charge" r_ec data) as [c|] eqn:C; [|discriminate].
    destruct (block log10 skew kurtosis names first second "charge" r_ed data) as [d|] eqn:D; [|discriminate].
    cbn [bind] in E. destruct (_ =? 28)%nat eqn:L in E; [|discriminate]. injection E as <-.
    assert (SEVEN : forall kind f c, block log10 skew kurtosis names first second kind f data = Ok c -> length c = 7%nat).
    { intros kind f x X. unfold block in X. destruct np_sub in X; [|discriminate]. cbn [bind] in X.
      destruct get_summary_statistics in X; [|discriminate]. cbn [bind] in X.
      apply seven_shape in X as (? & ? & ? & ? & ? & ? & ? & -> & _). reflexivity. }
    apply Nat.eqb_eq in L. rewrite combine_map_fst; [reflexivity|]. etransitivity; [exact L|].
    rewrite !app_length, (SEVEN _ _ _ A), (SEVEN _ _ _ B), (SEVEN _ _ _ C), (SEVEN _ _ _ D). reflexivity.
  Qed.

  (** With the statistics in their standard order, the feature named after a statistic and one of the
      first three quantities is that statistic of the change of that quantity from the first to the
      second cycle, if the two cycles have equally many points.  Missing: the discharging energy and
      other orders (false, see below). *)
  Theorem C82_values_partial first second data fs :
    stats supported first second data = Ok fs ->
    (forall q, In q meaning -> length (points second (fst (snd q)) (snd (snd q)) data) = length (points first (fst (snd q)) (snd (snd q)) data)) ->
    forall q s, In q (firstn 3 meaning) -> In s supported ->
    exists c, sget fs (s ++ "_" ++ fst q)%string = Some c /\
              is_statistic log10 skew kurtosis s (change (points second (fst (snd q)) (snd (snd q)) data) (points first (fst (snd q)) (snd (snd q)) data)) c.
  Proof.
    unfold cycle_summary_stats. intros E L.
    destruct (block log10 skew kurtosis supported first second "charge" r_qc data) as [a|] eqn:A; [|discriminate].
    destruct (block log10 skew kurtosis supported first second "discharge" r_qd data) as [b|] eqn:B; [|discriminate].
    destruct (block log10 skew kurtosis supported first second "charge" r_ec data) as [c|] eqn:C; [|discriminate].
    destruct (block log10 skew kurtosis supported first second "charge" r_ed data) as [d|] eqn:D; [|discriminate].
    cbn [bind] in E. destruct (_ =? 28)%nat in E; [|discriminate]. injection E as <-.
    apply block_points in A as [A LA]; [|exact (L _ (or_introl eq_refl))].
    apply block_points in B as [B LB]; [|exact (L _ (or_intror (or_introl eq_refl)))].
    apply block_points in C as [C LC]; [|exact (L _ (or_intror (or_intror (or_introl eq_refl))))].
    clear L. rewrite all_supported in A, B, C. clear D.
    destruct a as [|a1 [|a2 [|a3 [|a4 [|a5 [|a6 [|a7 [|? ?]]]]]]]]; try discriminate LA.
    destruct b as [|b1 [|b2 [|b3 [|b4 [|b5 [|b6 [|b7 [|? ?]]]]]]]]; try discriminate LB.
    destruct c as [|c1 [|c2 [|c3 [|c4 [|c5 [|c6 [|c7 [|? ?]]]]]]]]; try discriminate LC.
    intros q s Q S.
    assert (POS : exists i, (i < 7)%nat /\ nth_error supported i = Some s).
    { apply In_nth_error in S as [i I]. exists i. split; [|exact I]. change 7%nat with (length supported). apply nth_error_Some. rewrite I. discriminate. }
    destruct POS as (i & I7 & I).
    assert (GET : forall l cs, mapM (fun s => statistic log10 skew kurtosis s l) supported = Ok cs ->
              exists x, nth_error cs i = Some x /\ is_statistic log10 skew kurtosis s l x).
    { intros l cs M. destruct (mapM_nth _ _ _ _ _ M I) as (x & X & Y). exists x. split; [exact X|]. apply statistic_is; [exact S|exact Y]. }
    destruct Q as [<-|[<-|[<-|[]]]]; cbn [fst snd] in *.
    - destruct (GET _ _ A) as (x & X & Y). exists x. split; [|exact Y]. clear - X I7 I.
      do 7 (destruct i as [|i]; [injection I as <-; injection X as <-; reflexivity|]). lia.
    - destruct (GET _ _ B) as (x & X & Y). exists x. split; [|exact Y]. clear - X I7 I.
      do 7 (destruct i as [|i]; [injection I as <-; injection X as <-; reflexivity|]). lia.
    - destruct (GET _ _ C) as (x & X & Y). exists x. split; [|exact Y]. clear - X I7 I.
      do 7 (destruct i as [|i]; [injection I as <-; injection X as <-; reflexivity|]). lia.
  Qed.

  (** Only the two cycles matter. *)
  Theorem C82_two_cycles names first second data data' :
    filter (fun r => Z.eqb (r_cycle r) first || Z.eqb (r_cycle r) second) data =
    filter (fun r => Z.eqb (r_cycle r) first || Z.eqb (r_cycle r) second) data' ->
    stats names first second data = stats names first second data'.
  Proof.
    intro H.
    assert (K : forall c, c = first \/ c = second -> filter (fun r => Z.eqb (r_cycle r) c) data = filter (fun r => Z.eqb (r_cycle r) c) data').
    { intros c C. assert (F : forall l, filter (fun r => Z.eqb (r_cycle r) c) (filter (fun r => Z.eqb (r_cycle r) first || Z.eqb (r_cycle r) second) l) = filter (fun r => Z.eqb (r_cycle r) c) l).
      { intro l. rewrite filter_filter. apply filter_ext. intro r. destruct (Z.eqb_spec (r_cycle r) c) as [->|]; [|apply andb_false_r].
        destruct C as [-> | ->]; rewrite Z.eqb_refl, ?orb_true_r; reflexivity. }
      rewrite <- (F data), <- (F data'), H. reflexivity. }
    unfold cycle_summary_stats, block. cbn zeta.
    rewrite (K first (or_introl eq_refl)), (K second (or_intror eq_refl)). reflexivity.
  Qed.

  (** Finding: a choice of statistics other than seven names always fails. *)
  Theorem C82_choice_refuted names first second data :
    length names <> 7%nat -> stats names first second data = Err ValueError.
  Proof.
    intro N.
    assert (ERR : forall kind f, match block log10 skew kurtosis names first second kind f data with Ok _ => True | Err e => e = ValueError end).
    { intros kind f. unfold block. cbn zeta. set (a := map f _). set (b := map f _). unfold np_sub.
      assert (G : forall l, match (let! s := get_summary_statistics log10 skew kurtosis names l in seven s) with Ok _ => True | Err e => e = ValueError end).
      { intro l. unfold get_summary_statistics. destruct existsb; [reflexivity|].
        assert (M : forall ss, match mapM (fun s => statistic log10 skew kurtosis s l) ss with Ok _ => True | Err e => e = ValueError end).
        { induction ss as [|s ss IH]; [exact Logic.I|]. cbn [mapM]. unfold statistic at 1.
          repeat (destruct (String.eqb s _)); cbn [bind]; try destruct l; cbn [bind]; try reflexivity; destruct mapM; cbn [bind]; auto. }
        specialize (M (filter (fun s => str_in s names) supported)). destruct mapM; cbn [bind]; [|exact M].
        unfold seven. destruct (_ =? 7)%nat; [exact Logic.I|reflexivity]. }
      clearbody a b. destruct a as [|x [|x' a']], b as [|y [|y' b']]; cbn [bind]; try apply G; destruct (_ =? _)%nat; cbn [bind]; try apply G; reflexivity. }
    unfold cycle_summary_stats.
    pose proof (ERR "charge"%string r_qc) as A. pose proof (ERR "discharge"%string r_qd) as B.
    pose proof (ERR "charge"%string r_ec) as C. pose proof (ERR "charge"%string r_ed) as D.
    do 4 (destruct (block log10 skew kurtosis names first second _ _ data); [cbn [bind]|subst; reflexivity]).
    destruct (_ =? 28)%nat eqn:L; [|reflexivity]. apply Nat.eqb_eq in L. exfalso. apply N.
    cbn [quantities flat_map] in L. rewrite !app_length, !map_length in L. cbn in L. lia.
  Qed.
End C82.

(** Two cycles, 10 and 100; the charge capacity changes by 1 and 5, the discharge energy of the
    discharge by 3, that of the charge by 0. *)
Definition toy_row (c : Z) (s : string) (qc qd ec ed : Q) : irow :=
  {| r_cycle := c; r_step := s; r_qc := Some qc; r_qd := Some qd; r_ec := Some ec; r_ed := Some ed |}.
Definition toy_cycles : list irow :=
  [toy_row 10 "charge" 0 0 0 0; toy_row 10 "charge" 0 0 0 0; toy_row 10 "discharge" 0 0 0 0;
   toy_row 100 "charge" 1 0 2 0; toy_row 100 "charge" 5 0 2 0; toy_row 100 "discharge" 5 4 2 3].
Example C82_case log10 skew kurtosis :
  exists fs, cycle_summary_stats log10 skew kurtosis supported 10 100 toy_cycles = Ok fs /\ length fs = 28%nat /\
  change (points 100 "charge" r_qc toy_cycles) (points 10 "charge" r_qc toy_cycles) = [1; 5] /\
  change (points 100 "discharge" r_qd toy_cycles) (points 10 "discharge" r_qd toy_cycles) = [4].
Proof. eexists. split; [vm_compute; reflexivity|]. repeat split. Qed.
Example C82_case_points : forall q, In q meaning -> length (points 100 (fst (snd q)) (snd (snd q)) toy_cycles) = length (points 10 (fst (snd q)) (snd (snd q)) toy_cycles).
Proof. intros q H. repeat destruct H as [<-|H]; try destruct H; reflexivity. Qed.

(** Finding: with the statistics named in another order the names and the values no longer belong
    together; the feature named minimum is the variance.  (The logarithm of different positive numbers
    is different.) *)
Theorem C82_order_refuted log10 skew kurtosis :
  (forall p q, 0 < p -> p < q -> log10 p <> log10 q) ->
  exists names first second data fs c,
    (forall s, In s names <-> In s supported) /\
    cycle_summary_stats log10 skew kurtosis names first second data = Ok fs /\ sget fs "min_charging_capacity" = Some c /\
    ~ is_statistic log10 skew kurtosis "min" (change (points second "charge" r_qc data) (points first "charge" r_qc data)) c.
Proof.
  intro INJ. exists ["min"; "var"; "mean"; "skew"; "kurtosis"; "abs"; "square"]%string, 10%Z, 100%Z, toy_cycles.
  do 2 eexists. split; [|split; [vm_compute; reflexivity|split; [vm_compute; reflexivity|]]].
  - intro s. cbn. tauto.
  - intros (_ & H & _). destruct (H eq_refl) as (m & [<-|[<-|[]]] & M & E).
    + symmetry in E. revert E. apply INJ; vm_compute; reflexivity.
    + specialize (M 1 (or_introl eq_refl)). vm_compute in M. apply M. reflexivity.
Qed.

(** Finding: the discharging energy is taken from the charge steps. *)
Theorem C82_discharging_energy_refuted log10 skew kurtosis :
  (forall p q, 0 <= p -> p < q -> log10 p <> log10 q) ->
  exists first second data fs c,
    cycle_summary_stats log10 skew kurtosis supported first second data = Ok fs /\ sget fs "mean_discharging_energy" = Some c /\
    ~ is_statistic log10 skew kurtosis "mean" (change (points second "discharge" r_ed data) (points first "discharge" r_ed data)) c.
Proof.
  intro INJ. exists 10%Z, 100%Z, toy_cycles. do 2 eexists. split; [vm_compute; reflexivity|split; [vm_compute; reflexivity|]].
  intros (_ & _ & H & _). specialize (H eq_refl ltac:(discriminate)). revert H. apply INJ; vm_compute; congruence.
Qed.

Section C83.
  Variables (log10 : Q -> cell) (skew kurtosis_fisher : list num -> num) (polyfit : list (nat * num) -> result (cell * cell)).
  Notation features := (delta_features log10 skew kurtosis_fisher polyfit).

  Lemma features_shape h summary data h' fs : features h summary data = (h', Ok fs) ->
    exists q2 first largest qn tti d tmax tmin f1 f2 ir ir2 irn,
      let ir' := map (fun x => match x with Some v => if Qeq_bool v 0 then None else x | None => None end) ir in
      let curve c := map r_qd (filter (fun r => Z.eqb (r_cycle r) c) (filter (fun r => String.eqb (r_step r) "discharge") data)) in
      at_pos 1 (map u_qd summary) = Ok q2 /\ positions 0 (final_pred h - 1 + 1) (map u_qd summary) = Ok first /\
      py_max (map (fun q => nsub q q2) first) = Ok largest /\ at_pos (final_pred h - 1) (map u_qd summary) = Ok qn /\
      positions 0 (final_pred h - 1 + 1) (map u_tti summary) = Ok tti /\
      np_sub (curve (Z.of_nat (final_pred h - 1))) (curve 9%Z) = Ok d /\
      positions 1 (final_pred h - 1 + 1) (map u_tmax summary) = Ok tmax /\ positions 1 (final_pred h - 1 + 1) (map u_tmin summary) = Ok tmin /\
      fit polyfit 1 (final_pred h - 1 + 1) (map u_qd summary) = Ok f1 /\ fit polyfit (mid_pred h - 1) (final_pred h - 1 + 1) (map u_qd summary) = Ok f2 /\
      positions 1 (final_pred h - 1 + 1) (map u_ir summary) = Ok ir /\ at_pos 1 (map u_ir summary) = Ok ir2 /\ at_pos (final_pred h - 1) (map u_ir summary) = Ok irn /\
      fs = combine delta_labels
           ([cell_of q2; cell_of largest; cell_of qn; Number (qsum (dropna tti)); cell_of (mean (firstn 5 (skipn 1 (map u_duration summary))))] ++ difference_features log10 skew kurtosis_fisher d ++
            [cell_of (col_max tmax); cell_of (col_min tmin); fst f1; snd f1; fst f2; snd f2; cell_of (col_min ir'); cell_of ir2; cell_of (nsub irn ir2);
             cell_of (median (firstn 40 (map u_qd summary)))]).
  Proof.
    unfold delta_features. intro E. apply (f_equal snd) in E. cbn [snd] in E.
    destruct (at_pos 1 (map u_qd summary)) as [q2|] eqn:E1; [|discriminate]. cbn [bind] in E.
    destruct (positions 0 (final_pred h - 1 + 1) (map u_qd summary)) as [first|] eqn:E2; [|discriminate]. cbn [bind] in E.
    destruct (py_max _) as [largest|] eqn:E3 in E; [|discriminate]. cbn [bind] in E.
    destruct (at_pos (final_pred h - 1) (map u_qd summary)) as [qn|] eqn:E4; [|discriminate]. cbn [bind] in E.
    destruct (positions 0 (final_pred h - 1 + 1) (map u_tti summary)) as [tti|] eqn:E5; [|discriminate]. cbn [bind] in E.
    destruct (np_sub _ _) as [d|] eqn:E6 in E; [|discriminate]. cbn [bind] in E.
    destruct (positions 1 (final_pred h - 1 + 1) (map u_tmax summary)) as [tmax|] eqn:E7; [|discriminate]. cbn [bind] in E.
    destruct (positions 1 (final_pred h - 1 + 1) (map u_tmin summary)) as [tmin|] eqn:E8; [|discriminate]. cbn [bind] in E.
    destruct (fit polyfit 1 (final_pred h - 1 + 1) (map u_qd summary)) as [f1|] eqn:E9; [|discriminate]. cbn [bind] in E.
    destruct (fit polyfit (mid_pred h - 1) (final_pred h - 1 + 1) (map u_qd summary)) as [f2|] eqn:E10; [|discriminate]. cbn [bind] in E.
    destruct (positions 1 (final_pred h - 1 + 1) (map u_ir summary)) as [ir|] eqn:E11; [|discriminate]. cbn [bind] in E.
    destruct ir as [|i0 ir0]; [discriminate|]. cbn [map bind] in E.
    destruct (at_pos 1 (map u_ir summary)) as [ir2|] eqn:E13; [|discriminate]. cbn [bind] in E.
    destruct (at_pos (final_pred h - 1) (map u_ir summary)) as [irn|] eqn:E14; [|discriminate]. cbn [bind] in E.
    apply (f_equal (fun r => match r with Ok x => x | Err _ => fs end)) in E. cbn beta iota in E. subst fs.
    exists q2, first, largest, qn, tti, d, tmax, tmin, f1, f2, (i0 :: ir0), ir2, irn. cbn zeta.
    repeat (split; [first [assumption|reflexivity]|]). reflexivity.
  Qed.

  (** What each feature is, cycles counted from 1 in the order of the summary and [n] being the final
      prediction cycle.  Missing: the names speak of cycle 100, 91, 10 and 2 whatever the
      hyperparameters and the cycles used (see below). *)
  Theorem C83_values_partial h summary data h' fs :
    (2 <= final_pred h)%nat -> (1 <= mid_pred h)%nat -> features h summary data = (h', Ok fs) ->
    let n := final_pred h in
    let resistances := map (fun x => match x with Some v => if Qeq_bool v 0 then None else Some v | None => None end) (cycles u_ir summary 2 n) in
    sget fs "discharge_capacity_cycle_2" = Some (cell_of (cycle_no u_qd summary 2)) /\
    sget fs "discharge_capacity_cycle_100" = Some (cell_of (cycle_no u_qd summary n)) /\
    ((forall k, (1 <= k <= n)%nat -> cycle_no u_qd summary k <> None) ->
      exists m, sget fs "max_discharge_capacity_difference" = Some (Number m) /\
                is_largest (map (fun q => nsub q (cycle_no u_qd summary 2)) (cycles u_qd summary 1 n)) (Some m)) /\
    sget fs "integrated_time_temperature_cycles_1:100" = Some (Number (qsum (dropna (cycles u_tti summary 1 n)))) /\
    sget fs "charge_time_cycles_1:5" = Some (cell_of (mean (map u_duration (firstn 5 (skipn 1 summary))))) /\
    (exists t, sget fs "max_temperature_cycles_1:100" = Some (cell_of t) /\ is_largest (cycles u_tmax summary 2 n) t) /\
    (exists t, sget fs "min_temperature_cycles_1:100" = Some (cell_of t) /\ is_smallest (cycles u_tmin summary 2 n) t) /\
    (exists a b, polyfit (combine (seq 1 (n - 1)) (cycles u_qd summary 2 n)) = Ok (a, b) /\
                 sget fs "slope_discharge_capacity_cycle_number_2:100" = Some a /\ sget fs "intercept_discharge_capacity_cycle_number_2:100" = Some b) /\
    (exists a b, polyfit (combine (seq (mid_pred h - 1) (n - (mid_pred h - 1))) (cycles u_qd summary (mid_pred h) n)) = Ok (a, b) /\
                 sget fs "slope_discharge_capacity_cycle_number_91:100" = Some a /\ sget fs "intercept_discharge_capacity_cycle_number_91:100" = Some b) /\
    (exists r, sget fs "min_internal_resistance_cycles_2:100" = Some (cell_of r) /\ is_smallest resistances r) /\
    sget fs "internal_resistance_cycle_2" = Some (cell_of (cycle_no u_ir summary 2)) /\
    sget fs "internal_resistance_difference_cycles_2:100" = Some (cell_of (nsub (cycle_no u_ir summary n) (cycle_no u_ir summary 2))) /\
    sget fs "nominal_capacity_by_median" = Some (cell_of (median (map u_qd (firstn 40 summary)))).
  Proof.
    intros N2 M1 E n resistances.
    apply features_shape in E as (q2 & first & largest & qn & tti & d & tmax & tmin & f1 & f2 & ir & ir2 & irn & E). cbn zeta in E.
    destruct E as (E1 & E2 & E3 & E4 & E5 & E6 & E7 & E8 & E9 & E10 & E11 & E13 & E14 & ->).
    replace (final_pred h - 1 + 1)%nat with n in * by lia.
    apply at_pos_cycle in E1, E4, E13, E14. apply positions_cycles in E2, E5, E7, E8, E11. unfold fit in E9, E10.
    replace (final_pred h - 1 + 1)%nat with n in * by lia. cbn [Nat.add] in *.
    destruct (positions 1 n (map u_qd summary)) as [p1|] eqn:P1; [|discriminate]. cbn [bind] in E9. apply positions_cycles in P1.
    destruct (positions (mid_pred h - 1) n (map u_qd summary)) as [p2|] eqn:P2; [|discriminate]. cbn [bind] in E10. apply positions_cycles in P2.
    replace (mid_pred h - 1 + 1)%nat with (mid_pred h) in P2 by lia. cbn [Nat.add] in P1.
    assert (SIX : exists x1 x2 x3 x4 x5 x6, difference_features log10 skew kurtosis_fisher d = [x1; x2; x3; x4; x5; x6]) by (destruct d; repeat eexists).
    destruct SIX as (x1 & x2 & x3 & x4 & x5 & x6 & ->).
    assert (MAX : forall l, is_largest l (col_max l)) by (intro l; pose proof (col_max_spec l) as K; unfold is_largest; destruct (col_max l); exact K).
    assert (MIN : forall l, is_smallest l (col_min l)) by (intro l; pose proof (col_min_spec l) as K; unfold is_smallest; destruct (col_min l); exact K).
    repeat split.
    - rewrite <- E1. reflexivity.
    - rewrite <- E4. reflexivity.
    - intro K. apply py_max_largest in E3 as [E3 NN].
      + destruct largest as [m|]; [|congruence]. exists m. split; [reflexivity|]. rewrite <- E1, <- E2. exact E3.
      + rewrite E2. apply Forall_forall. intros x X. apply in_map_iff in X as (q & <- & X). unfold cycles in X. apply in_map_iff in X as (k & <- & X).
        apply in_seq in X. pose proof (K k ltac:(lia)) as K1. pose proof (K 2%nat ltac:(lia)) as K2. rewrite E1.
        destruct (cycle_no u_qd summary k); [|congruence]. destruct (cycle_no u_qd summary 2); [discriminate|congruence].
    - rewrite <- E5. reflexivity.
    - rewrite <- firstn_map, <- skipn_map. reflexivity.
    - exists (col_max tmax). split; [reflexivity|]. rewrite <- E7. apply MAX.
    - exists (col_min tmin). split; [reflexivity|]. rewrite <- E8. apply MIN.
    - exists (fst f1), (snd f1). rewrite <- P1. split; [|split; reflexivity]. transitivity (Ok f1); [rewrite <- E9; reflexivity|destruct f1; reflexivity].
    - exists (fst f2), (snd f2). rewrite <- P2. split; [|split; reflexivity]. transitivity (Ok f2); [rewrite <- E10; reflexivity|destruct f2; reflexivity].
    - exists (col_min resistances). split; [|apply MIN]. unfold resistances. rewrite <- E11.
      rewrite (map_ext (fun x : option Q => match x with Some v => if Qeq_bool v 0 then None else Some v | None => None end)
                       (fun x => match x with Some v => if Qeq_bool v 0 then None else x | None => None end)) by (intros [v|]; reflexivity). reflexivity.
    - rewrite <- E13. reflexivity.
    - rewrite <- E13, <- E14. reflexivity.
    - rewrite <- firstn_map. reflexivity.
  Qed.

  (** The capacity difference features compare cycle index [n - 1] with cycle index 9 of the discharge
      curves, point by point. *)
  Theorem C83_differences_partial h summary data h' fs :
    features h summary data = (h', Ok fs) ->
    let n := Z.of_nat (final_pred h - 1) in
    let a := points n "discharge" r_qd data in let b := points 9 "discharge" r_qd data in
    length a = length b -> (exists x y, In (x, y) (combine a b) /\ x <> None /\ y <> None) ->
    let d := change a b in
    (exists m, In m d /\ (forall x, In x d -> m <= x) /\ sget fs "abs_min_discharge_capacity_difference_cycles_2:100" = Some (log10 (Qabs m))) /\
    sget fs "abs_mean_discharge_capacity_difference_cycles_2:100" = Some (log10 (Qabs (average d))) /\
    sget fs "abs_variance_discharge_capacity_difference_cycles_2:100" = Some (log10 (Qabs (average (map (fun x => (x - average d) * (x - average d)) d)))) /\
    (forall x y r r', a = Some x :: r -> b = Some y :: r' -> sget fs "abs_first_discharge_capacity_difference_cycles_2:100" = Some (log10 (Qabs (x - y)))).
  Proof.
    intros E n a b L KNOWN d.
    apply features_shape in E as (q2 & first & largest & qn & tti & d' & tmax & tmin & f1 & f2 & ir & ir2 & irn & E). cbn zeta in E.
    destruct E as (_ & _ & _ & _ & _ & E6 & _ & _ & _ & _ & _ & _ & _ & ->).
    assert (P : forall c, map r_qd (filter (fun r => Z.eqb (r_cycle r) c) (filter (fun r => String.eqb (r_step r) "discharge") data)) = points c "discharge" r_qd data).
    { intro c. unfold points. rewrite filter_filter. f_equal. apply filter_ext. intro r. apply andb_comm. }
    rewrite !P in E6. fold n a b in E6. rewrite (np_sub_same _ _ L) in E6.
    apply (f_equal (fun r => match r with Ok x => x | Err _ => [] end)) in E6. cbn beta iota in E6.
    assert (DN : dropna d' = d) by (rewrite <- E6; apply dropna_change).
    assert (NE : d <> []).
    { destruct KNOWN as (x & y & K & X & Y). destruct x as [x|]; [|congruence]. destruct y as [y|]; [|congruence]. intro Z.
      assert (I : In (x - y) d) by (unfold d, change; apply in_flat_map; exists (Some x, Some y); split; [exact K|left; reflexivity]).
      rewrite Z in I. exact I. }
    assert (D0 : d' <> []) by (intros ->; cbn in DN; congruence).
    assert (MEAN : forall l : list Q, l <> [] -> mean (map Some l) = Some (average l)).
    { clear. intros l N. unfold mean, average.
      assert (D : dropna (map Some l) = l) by (induction l as [|x l IH]; cbn; [reflexivity|f_equal; destruct l; [reflexivity|apply IH; discriminate]]).
      rewrite D. destruct l; [congruence|reflexivity]. }
    assert (KEEP : forall l q, In (Some q) l <-> In q (dropna l)).
    { clear. induction l as [|[x|] l IH]; intro q; cbn; [tauto|rewrite <- IH; split; [intros [H|H]; [injection H as ->; auto|auto]|intros [->|H]; auto]|rewrite <- IH; split; [intros [H|H]; [discriminate|exact H]|auto]]. }
    destruct d' as [|x0 d'']; [congruence|]. set (dd := x0 :: d'') in *.
    split; [|split; [|split]].
    - pose proof (col_min_spec dd) as S. destruct (col_min dd) as [m|] eqn:CM.
      + exists m. destruct S as [S1 S2]. rewrite <- DN. split; [apply KEEP; exact S1|]. split; [intros x X; apply S2, KEEP; exact X|].
        change (Some (log_abs log10 (col_min dd)) = Some (log10 (Qabs m))). rewrite CM. reflexivity.
      + exfalso. destruct d as [|q0 dr]; [congruence|]. apply (S q0), KEEP. rewrite DN. left. reflexivity.
    - change (Some (log_abs log10 (mean dd)) = Some (log10 (Qabs (average d)))). unfold mean, average. rewrite DN. destruct d; [congruence|reflexivity].
    - change (Some (log_abs log10 (variance (dropna dd))) = Some (log10 (Qabs (average (map (fun x => (x - average d) * (x - average d)) d))))).
      rewrite DN. unfold variance. rewrite (MEAN _ NE). rewrite <- (map_map (fun x => (x - average d) * (x - average d)) Some), MEAN; [reflexivity|].
      destruct d; [congruence|discriminate].
    - intros x y r r' A B. change (Some (log_abs log10 x0) = Some (log10 (Qabs (x - y)))). rewrite A, B in E6. cbn in E6. injection E6 as <- _. reflexivity.
  Qed.

  (** Finding: neither the initial prediction cycle nor the number of nominal cycles has any effect. *)
  Theorem C83_hyperparameters_refuted h init nominal summary data :
    snd (features h summary data) =
    snd (features {| init_pred := init; mid_pred := mid_pred h; final_pred := final_pred h; n_nominal := nominal |} summary data).
  Proof. reflexivity. Qed.

  (** Finding: the hyperparameters that are recorded are not those that were given. *)
  Theorem C83_recorded_refuted h summary data : n_nominal (fst (features h summary data)) = 40%nat.
  Proof. reflexivity. Qed.

  (** Finding: when the two discharge curves have no points the features are 0, not missing. *)
  Theorem C83_missing_refuted h summary data h' fs :
    features h summary data = (h', Ok fs) ->
    points (Z.of_nat (final_pred h - 1)) "discharge" r_qd data = [] -> points 9 "discharge" r_qd data = [] ->
    sget fs "abs_min_discharge_capacity_difference_cycles_2:100" = Some (Number 0) /\
    sget fs "abs_variance_discharge_capacity_difference_cycles_2:100" = Some (Number 0).
  Proof.
    intros E A B.
    apply features_shape in E as (q2 & first & largest & qn & tti & d' & tmax & tmin & f1 & f2 & ir & ir2 & irn & E). cbn zeta in E.
    destruct E as (_ & _ & _ & _ & _ & E6 & _ & _ & _ & _ & _ & _ & _ & ->).
    assert (P : forall c, map r_qd (filter (fun r => Z.eqb (r_cycle r) c) (filter (fun r => String.eqb (r_step r) "discharge") data)) = points c "discharge" r_qd data).
    { intro c. unfold points. rewrite filter_filter. f_equal. apply filter_ext. intro r. apply andb_comm. }
    rewrite !P, A, B in E6. cbn in E6. injection E6 as <-. split; reflexivity.
  Qed.
End C83.

(** 102 cycles that lose capacity, with the discharge curves of cycle indices 9 and 99. *)
Definition toy_summary : list urow :=
  map (fun k => {| u_qd := Some (inject_Z (Z.of_nat (200 - k))); u_tti := Some 1; u_duration := Some (if (k <? 6)%nat then 1 else 7);
                   u_tmax := Some (inject_Z (Z.of_nat k)); u_tmin := Some 20; u_ir := Some (if (k =? 3)%nat then 0 else 2) |}) (seq 1 102).
Definition toy_curves : list irow :=
  [toy_row 9 "discharge" 0 0 0 0; toy_row 10 "discharge" 0 1 0 0; toy_row 99 "discharge" 0 5 0 0; toy_row 100 "discharge" 0 7 0 0].
Example C83_case log10 skew kurtosis_fisher p :
  delta_valid delta_defaults toy_summary = true /\
  exists h fs, delta_features log10 skew kurtosis_fisher (fun _ => Ok p) delta_defaults toy_summary toy_curves = (h, Ok fs) /\
  sget fs "discharge_capacity_cycle_100" = Some (Number 100) /\ sget fs "min_internal_resistance_cycles_2:100" = Some (Number 2) /\
  change (points 99 "discharge" r_qd toy_curves) (points 9 "discharge" r_qd toy_curves) = [5].
Proof. split; [vm_compute; reflexivity|]. do 2 eexists. split; [vm_compute; reflexivity|]. repeat split. Qed.

(** Finding: features named after cycle 100 belong to whatever the final prediction cycle is. *)
Theorem C83_names_refuted log10 skew kurtosis_fisher p :
  exists h summary data h' fs,
    delta_valid h summary = true /\ delta_features log10 skew kurtosis_fisher (fun _ => Ok p) h summary data = (h', Ok fs) /\
    sget fs "discharge_capacity_cycle_100" = Some (cell_of (cycle_no u_qd summary 20)) /\
    sget fs "discharge_capacity_cycle_100" <> Some (cell_of (cycle_no u_qd summary 100)).
Proof.
  exists {| init_pred := 10; mid_pred := 15; final_pred := 20; n_nominal := 40 |}, toy_summary, toy_curves. do 2 eexists.
  split; [vm_compute; reflexivity|split; [vm_compute; reflexivity|]]. split; [reflexivity|]. vm_compute. intro H. discriminate.
Qed.
(** Finding: the charge time of cycles 1 to 5 is that of cycles 2 to 6. *)
Theorem C83_charge_time_refuted log10 skew kurtosis_fisher p :
  exists summary data h' fs,
    delta_features log10 skew kurtosis_fisher (fun _ => Ok p) delta_defaults summary data = (h', Ok fs) /\
    (forall k, (1 <= k <= 5)%nat -> cycle_no u_duration summary k = Some 1) /\
    exists t, sget fs "charge_time_cycles_1:5" = Some (Number t) /\ 2 < t.
Proof.
  exists toy_summary, toy_curves. do 2 eexists. split; [vm_compute; reflexivity|]. split.
  - intros k K. do 6 (destruct k as [|k]; [first [lia|reflexivity]|]). lia.
  - eexists. split; reflexivity.
Qed.
(** Finding: the summary is read by position and the curves by cycle index.  In a run whose cycle
    indices start at 1, the hundredth and tenth cycles differ by 6, but the feature compares the
    ninety-ninth with the ninth. *)
Theorem C83_numbering_refuted log10 skew kurtosis_fisher p :
  exists summary data h' fs,
    delta_features log10 skew kurtosis_fisher (fun _ => Ok p) delta_defaults summary data = (h', Ok fs) /\
    change (points 100 "discharge" r_qd data) (points 10 "discharge" r_qd data) = [6] /\
    sget fs "abs_first_discharge_capacity_difference_cycles_2:100" = Some (log10 5).
Proof. exists toy_summary, toy_curves. do 2 eexists. split; [vm_compute; reflexivity|]. split; reflexivity. Qed.

(** ** C84 *)
(** The summary statistics can be computed for a run that is accepted if, for every quantity, the two
    cycles have equally many points and one where it is known in both.  Missing: validation checks
    neither (see below). *)
Theorem C84_cycle_statistics_partial log10 skew kurtosis first second data :
  cycle_summary_valid first second data = true ->
  (forall kind f, In (kind, f) [("charge"%string, r_qc); ("discharge"%string, r_qd); ("charge"%string, r_ec); ("charge"%string, r_ed)] ->
     length (points second kind f data) = length (points first kind f data) /\
     change (points second kind f data) (points first kind f data) <> []) ->
  exists fs, cycle_summary_stats log10 skew kurtosis supported first second data = Ok fs.
Proof.
  intros _ H.
  assert (B : forall kind f, In (kind, f) [("charge"%string, r_qc); ("discharge"%string, r_qd); ("charge"%string, r_ec); ("charge"%string, r_ed)] ->
            exists c, block log10 skew kurtosis supported first second kind f data = Ok c).
  { intros kind f I. destruct (H _ _ I) as [L N]. unfold block. cbn zeta. rewrite !filter_filter.
    fold (points second kind f data). fold (points first kind f data). rewrite (np_sub_same _ _ L). cbn [bind]. rewrite dropna_change, all_supported.
    destruct (change _ _) as [|x l]; [congruence|]. eexists. reflexivity. }
  destruct (B _ _ (or_introl eq_refl)) as [a A]. destruct (B _ _ (or_intror (or_introl eq_refl))) as [b B'].
  destruct (B _ _ (or_intror (or_intror (or_introl eq_refl)))) as [c C]. destruct (B _ _ (or_intror (or_intror (or_intror (or_introl eq_refl))))) as [d D].
  unfold cycle_summary_stats. rewrite A, B', C, D. cbn [bind]. eexists. reflexivity.
Qed.
Example C84_cycle_statistics_case : cycle_summary_valid 10 100 toy_cycles = true /\
  Forall (fun p => length (points 100 (fst p) (snd p) toy_cycles) = length (points 10 (fst p) (snd p) toy_cycles) /\
                   change (points 100 (fst p) (snd p) toy_cycles) (points 10 (fst p) (snd p) toy_cycles) <> [])
    [("charge"%string, r_qc); ("discharge"%string, r_qd); ("charge"%string, r_ec); ("charge"%string, r_ed)].
Proof. split; [reflexivity|]. repeat constructor; cbn; discriminate. Qed.
(** A run is accepted exactly when it has records of both cycles. *)
Theorem C84_cycle_statistics_accepts first second data :
  cycle_summary_valid first second data = true <->
  (exists r, In r data /\ r_cycle r = first) /\ (exists r, In r data /\ r_cycle r = second).
Proof.
  unfold cycle_summary_valid. cbn zeta.
  assert (H : forall c, (length (filter (fun r => Z.eqb (r_cycle r) c) data) =? 0)%nat = false <-> exists r, In r data /\ r_cycle r = c).
  { intro c. rewrite Nat.eqb_neq. split.
    - intro N. destruct (filter _ data) as [|r l] eqn:F; [destruct N; reflexivity|]. exists r.
      assert (I : In r (filter (fun r => Z.eqb (r_cycle r) c) data)) by (rewrite F; left; reflexivity).
      apply filter_In in I as [I E]. apply Z.eqb_eq in E. auto.
    - intros (r & I & E). assert (K : In r (filter (fun r => Z.eqb (r_cycle r) c) data)) by (apply filter_In; split; [exact I|apply Z.eqb_eq; exact E]).
      destruct (filter _ data); [destruct K|discriminate]. }
  rewrite negb_true_iff, orb_false_iff, !H. reflexivity.
Qed.
(** Finding: a run is accepted although one of the two cycles has no charge. *)
Theorem C84_cycle_statistics_refuted log10 skew kurtosis :
  exists first second data, cycle_summary_valid first second data = true /\
  cycle_summary_stats log10 skew kurtosis supported first second data = Err ValueError.
Proof. exists 10%Z, 100%Z, [toy_row 10 "discharge" 0 0 0 0; toy_row 100 "discharge" 5 4 2 3]. split; reflexivity. Qed.

(** The fast charge features can be computed for a run that is accepted if the two curves have equally
    many points and the lines can be fitted. *)
Theorem C84_fast_charge_partial log10 skew kurtosis_fisher polyfit h summary data :
  delta_valid h summary = true ->
  length (points (Z.of_nat (final_pred h - 1)) "discharge" r_qd data) = length (points 9 "discharge" r_qd data) ->
  (forall l, exists p, polyfit l = Ok p) ->
  exists h' fs, delta_features log10 skew kurtosis_fisher polyfit h summary data = (h', Ok fs).
Proof.
  intros V L F. unfold delta_valid in V. destruct summary as [|u0 us] eqn:SU; [discriminate|]. rewrite <- SU in *. clear u0 us SU.
  apply andb_true_iff in V as [V V4]. apply andb_true_iff in V as [V V3]. apply andb_true_iff in V as [V _].
  apply Nat.ltb_lt in V, V3, V4.
  assert (AT : forall (f : urow -> num) i, (i < length summary)%nat -> exists x, at_pos i (map f summary) = Ok x).
  { intros f i I. unfold at_pos. destruct (nth_error (map f summary) i) eqn:N; [eauto|]. apply nth_error_None in N. rewrite map_length in N. lia. }
  assert (POS : forall (f : urow -> num) a b, (b <= length summary)%nat -> exists x, positions a b (map f summary) = Ok x).
  { intros f a b B. unfold positions. destruct (b <=? a)%nat; [eauto|]. rewrite map_length. apply Nat.leb_le in B. rewrite B. eauto. }
  assert (FIT : forall a b, (b <= length summary)%nat -> exists x, fit polyfit a b (map u_qd summary) = Ok x).
  { intros a b B. unfold fit. destruct (POS u_qd a b B) as [x ->]. cbn [bind]. apply F. }
  eexists. unfold delta_features. cbn zeta.
  destruct (AT u_qd 1%nat ltac:(lia)) as [q2 ->]. cbn [bind].
  destruct (POS u_qd 0%nat (final_pred h - 1 + 1)%nat ltac:(lia)) as [first E1]. rewrite E1. cbn [bind].
  assert (MX : exists m, py_max (map (fun q => nsub q q2) first) = Ok m).
  { apply positions_cycles in E1. unfold cycles in E1. replace (final_pred h - 1 + 1 + 1 - (0 + 1))%nat with (S (final_pred h - 1)) in E1 by lia.
    cbn [seq map] in E1. rewrite E1. eexists. reflexivity. }
  destruct MX as [m ->]. cbn [bind].
  destruct (AT u_qd (final_pred h - 1)%nat ltac:(lia)) as [qn ->]. cbn [bind].
  destruct (POS u_tti 0%nat (final_pred h - 1 + 1)%nat ltac:(lia)) as [tti ->]. cbn [bind].
  assert (P : forall c, map r_qd (filter (fun r => Z.eqb (r_cycle r) c) (filter (fun r => String.eqb (r_step r) "discharge") data)) = points c "discharge" r_qd data).
  { intro c. unfold points. rewrite filter_filter. f_equal. apply filter_ext. intro r. apply andb_comm. }
  rewrite !P, (np_sub_same _ _ L). cbn [bind].
  destruct (POS u_tmax 1%nat (final_pred h - 1 + 1)%nat ltac:(lia)) as [tmax ->]. cbn [bind].
  destruct (POS u_tmin 1%nat (final_pred h - 1 + 1)%nat ltac:(lia)) as [tmin ->]. cbn [bind].
  destruct (FIT 1%nat (final_pred h - 1 + 1)%nat ltac:(lia)) as [f1 ->]. cbn [bind].
  destruct (FIT (mid_pred h - 1)%nat (final_pred h - 1 + 1)%nat ltac:(lia)) as [f2 ->]. cbn [bind].
  destruct (POS u_ir 1%nat (final_pred h - 1 + 1)%nat ltac:(lia)) as [ir E2]. rewrite E2. cbn [bind].
  apply positions_cycles in E2. unfold cycles in E2. replace (final_pred h - 1 + 1 + 1 - (1 + 1))%nat with (S (final_pred h - 2)) in E2 by lia.
  cbn [seq map Nat.add] in E2. rewrite E2. cbn [map bind].
  destruct (AT u_ir 1%nat ltac:(lia)) as [ir2 ->]. cbn [bind].
  destruct (AT u_ir (final_pred h - 1)%nat ltac:(lia)) as [irn ->]. cbn [bind].
  eexists. reflexivity.
Qed.
Example C84_fast_charge_case : delta_valid delta_defaults toy_summary = true /\
  length (points (Z.of_nat (final_pred delta_defaults - 1)) "discharge" r_qd toy_curves) = length (points 9 "discharge" r_qd toy_curves).
Proof. split; vm_compute; reflexivity. Qed.
(** Finding: a run is accepted although its two discharge curves have different numbers of points. *)
Theorem C84_fast_charge_refuted log10 skew kurtosis_fisher p :
  exists h summary data, delta_valid h summary = true /\
  snd (delta_features log10 skew kurtosis_fisher (fun _ => Ok p) h summary data) = Err ValueError.
Proof.
  exists delta_defaults, toy_summary, (toy_curves ++ toy_curves ++ [toy_row 9 "discharge" 0 0 0 0]). split; vm_compute; reflexivity.
Qed.

Print Assumptions C82_names.
Print Assumptions C82_values_partial.
Print Assumptions C82_two_cycles.
Print Assumptions C82_choice_refuted.
Print Assumptions C82_order_refuted.
Print Assumptions C82_discharging_energy_refuted.
Print Assumptions C83_values_partial.
Print Assumptions C83_differences_partial.
Print Assumptions C83_hyperparameters_refuted.
Print Assumptions C83_recorded_refuted.
Print Assumptions C83_missing_refuted.
Print Assumptions C83_names_refuted.
Print Assumptions C83_charge_time_refuted.
Print Assumptions C83_numbering_refuted.
Print Assumptions C84_cycle_statistics_accepts.
Print Assumptions C84_cycle_statistics_partial.
Print Assumptions C84_cycle_statistics_refuted.
Print Assumptions C84_fast_charge_partial.
Print Assumptions C84_fast_charge_refuted.

(** C13 - C15, C56: cycle life, capacity thresholds, constant-voltage segment.
    The vocabulary is in Spec_Life and Spec_Summary. *)
From Coq Require Import Sorted Permutation.
From Verif Require Import Py Num Model_Raw Model_Summary Spec_Summary Spec_Life Proofs_Life.

(** C13: still above the threshold at the end: one more than the number of cycles. *)
Theorem C13_not_reached :
  forall summary threshold m, 0 < m -> reference summary m ->
  forall lab q, last_error summary = Some (lab, Some q) -> threshold * m < q ->
  get_cycle_life summary 40 threshold = Ok (Z.of_nat (length summary) + 1)%Z.
Proof. exact life_above. Qed.
(** C13: below the threshold at the end: the first cycle below it. *)
Theorem C13_first_crossing :
  forall summary threshold m, 0 < m -> reference summary m ->
  forall lab q, last_error summary = Some (lab, Some q) -> q < threshold * m ->
  exists label, get_cycle_life summary 40 threshold = Ok label /\ first_below summary (threshold * m) label.
Proof. exact life_below. Qed.
(** C13: exactly at the threshold at the end: the first cycle below it if there
    is one, otherwise an IndexError. *)
Theorem C13_exactly_at_threshold :
  forall summary threshold m, 0 < m -> reference summary m ->
  forall lab q, last_error summary = Some (lab, Some q) -> q == threshold * m ->
  (forall label, first_below summary (threshold * m) label -> get_cycle_life summary 40 threshold = Ok label) /\
  ((forall r, In r summary -> ~ below (threshold * m) (snd r)) -> get_cycle_life summary 40 threshold = Err IndexError).
Proof. exact life_equal. Qed.

(** Finding (C13): a capacity exactly at the threshold raises. *)
Theorem C13_total_refuted :
  exists summary threshold, get_cycle_life summary 40 threshold = Err IndexError /\ summary <> [].
Proof. exists [(0%Z, Some (11 # 10)); (1%Z, Some (88 # 100))], (8 # 10). split; [vm_compute; reflexivity|discriminate]. Qed.
(** Finding (C13): one missing value among the first 40 capacities hides a
    crossing completely. *)
Theorem C13_missing_value_refuted :
  exists summary lab q, last_error summary = Some (lab, Some q) /\ q == 1 # 2 /\
    (forall l c, In (l, Some c) (removelast summary) -> c == 1) /\
    get_cycle_life summary 40 (8 # 10) = Ok (Z.of_nat (length summary) + 1)%Z.
Proof.
  exists ((0%Z, None) :: repeat (1%Z, Some 1) 45 ++ [(2%Z, Some (1 # 2))]), 2%Z, (1 # 2).
  split; [vm_compute; reflexivity|]. split; [reflexivity|]. split; [|vm_compute; reflexivity].
  intros l c H. change (removelast _) with ((0%Z, None : num) :: repeat (1%Z, Some 1) 45) in H.
  destruct H as [H|H]; [discriminate|]. apply repeat_spec in H. injection H as _ ->. reflexivity.
Qed.

(** C14: of two thresholds that the cell has both crossed, the higher one is
    reported no later. *)
Theorem C14_higher_threshold_no_later :
  forall summary m low high a b, 0 < m -> reference summary m ->
  StronglySorted Z.le (map fst summary) -> low <= high ->
  (exists lab q, last_error summary = Some (lab, Some q) /\ q <= low * m) ->
  get_cycle_life summary 40 low = Ok a -> get_cycle_life summary 40 high = Ok b -> (b <= a)%Z.
Proof. exact life_mono. Qed.
(** C14: the columns of capacities_to_cycles are ordered, provided no cycle
    label exceeds the number of cycles plus one. *)
Theorem C14_columns_ordered :
  forall summary m tmax tmin interval cols, 0 < m -> reference summary m ->
  StronglySorted Z.le (map fst summary) -> (forall r, In r summary -> (fst r <= Z.of_nat (length summary) + 1)%Z) ->
  (forall lab c, last_error summary = Some (lab, c) -> c <> None) -> 0 < interval ->
  capacities_to_cycles summary tmax tmin interval = Ok cols -> StronglySorted Z.le cols.
Proof. exact columns_ordered. Qed.
(** Finding (C14): with gaps in the cycle numbers (diagnostic cycles removed) a
    threshold that is never reached is reported before one that is reached. *)
Theorem C14_columns_ordered_refuted :
  exists summary a b, StronglySorted Z.le (map fst summary) /\
    get_cycle_life summary 40 (7 # 10) = Ok a /\ get_cycle_life summary 40 (9 # 10) = Ok b /\ (a < b)%Z.
Proof.
  exists [(5%Z, Some 1); (9%Z, Some (9 # 10))], 3%Z, 9%Z.
  split; [repeat constructor; discriminate|]. repeat split; vm_compute; reflexivity.
Qed.

(** C15: for complete records in time order the segment is a non-empty tail of
    the charge; it starts one row before the first pair of records meeting the
    criteria.  Deviations: if the very first pair meets them, the segment is the
    last row only; if none does, it is the last two rows. *)
Theorem C15_cv_segment_is_tail_partial :
  forall dt dv di charge, 0 < dt -> Forall complete_row charge -> in_time_order charge -> charge <> [] ->
  exists k, cv_segment dt dv di charge = Ok (skipn k charge) /\ (k < length charge)%nat /\
    (forall i, cv_pair charge dt dv di i -> (forall j, (j < i)%nat -> ~ cv_pair charge dt dv di j) ->
       k = match i with O => (length charge - 1)%nat | S i' => i' end) /\
    ((forall i, ~ cv_pair charge dt dv di i) -> k = (length charge - 2)%nat).
Proof. exact cv_segment_spec. Qed.

(** C56: forecast capacities: every column is the capacity at that position of
    the summary, or 0 when the run is too short. *)
Theorem C56_capacities_at_cycles :
  forall caps cmin cmax interval out, (0 < interval)%nat ->
  cycles_to_capacities caps cmin cmax interval = Ok out ->
  forall c q, In (c, q) out ->
    (cmin <= c < cmax)%nat /\ Nat.divide interval (c - cmin) /\
    (nth_error caps c = Some q \/ ((length caps <= c)%nat /\ q = Some 0)).
Proof. exact c2c_values. Qed.
(** Finding (C56): a range that is not a multiple of the interval raises on short runs. *)
Theorem C56_total_refuted :
  exists caps, cycles_to_capacities caps 2 7 2 = Err ValueError /\ length caps = 3%nat.
Proof. exists [Some 1; Some 1; Some 1]. split; vm_compute; reflexivity. Qed.

(** ** Non-vacuity *)
Definition ex_summary : list (Z * num) := [(0%Z, Some 1); (1%Z, Some (7 # 10)); (2%Z, Some (9 # 10)); (3%Z, Some (6 # 10))].
Example C13_hyps : reference ex_summary (11 # 10) /\ get_cycle_life ex_summary 40 (8 # 10) = Ok 1%Z /\
  first_below ex_summary ((8 # 10) * (11 # 10)) 1.
Proof.
  split; [left; split; [simpl; lia|reflexivity]|]. split; [vm_compute; reflexivity|].
  exists [(0%Z, Some 1)], (Some (7 # 10)), [(2%Z, Some (9 # 10)); (3%Z, Some (6 # 10))].
  split; [reflexivity|]. split; [simpl; lra|]. repeat constructor. simpl. lra.
Qed.
Example C13_long : exists m, reference (map (fun i => (Z.of_nat i, Some (inject_Z (Z.of_nat i)))) (seq 0 41)) m /\ m == 39 # 2.
Proof.
  exists (39 # 2). split; [|reflexivity]. right. split; [vm_compute; lia|].
  exists (map (fun i => inject_Z (Z.of_nat i)) (seq 0 40)), 19, 20.
  split; [vm_compute; apply Permutation_refl|]. split; [|repeat split; vm_compute; reflexivity].
  vm_compute. repeat constructor; discriminate.
Qed.
Example C14_hyps : capacities_to_cycles ex_summary (98 # 100) (60 # 100) (10 # 100) = Ok [0%Z; 1%Z; 1%Z; 1%Z] /\
  StronglySorted Z.le (map fst ex_summary).
Proof. split; [vm_compute; reflexivity|]. repeat constructor; discriminate. Qed.

Definition mkc (t v c : Q) : row :=
  {| cycle_index := 1; step_index := 1; test_time := Some t; voltage := Some v; current := Some c;
     charge_capacity := Some t; discharge_capacity := Some 0; charge_energy := Some 0; discharge_energy := Some 0;
     internal_resistance := None; temperature := None; date_time := None; wf_chg_cap := None; wf_dis_cap := None |}.
Definition ex_charge := [mkc 0 3 1; mkc 10 (35 # 10) 1; mkc 20 (36 # 10) 1; mkc 30 (36 # 10) (1 # 2); mkc 40 (36 # 10) (1 # 4)].
Example C15_hyps : Forall complete_row ex_charge /\ in_time_order ex_charge /\
  cv_default ex_charge = Ok (skipn 1 ex_charge) /\ cv_pair ex_charge 1 (1 # 100000) (1 # 10000) 2.
Proof.
  split; [repeat constructor; repeat eexists|]. split.
  - unfold in_time_order, ex_charge.
    repeat (constructor; [|repeat (constructor; [intros t u H K; injection H as <-; injection K as <-; vm_compute; reflexivity|]); constructor]). constructor.
  - split; [vm_compute; reflexivity|].
    repeat eexists; simpl; try reflexivity; vm_compute; discriminate.
Qed.
(** Finding (C15): a charge that is constant-voltage from its first record is
    reduced to its last record. *)
Theorem C15_starts_at_first_cv_row_refuted :
  exists charge, Forall complete_row charge /\ in_time_order charge /\ length charge = 3%nat /\
    (forall i, (i < 2)%nat -> cv_pair charge 1 (1 # 100000) (1 # 10000) i) /\
    cv_default charge = Ok (skipn 2 charge).
Proof.
  exists [mkc 0 (36 # 10) 1; mkc 10 (36 # 10) (1 # 2); mkc 20 (36 # 10) (1 # 4)].
  split; [repeat constructor; repeat eexists|]. split.
  - unfold in_time_order.
    repeat (constructor; [|repeat (constructor; [intros t u H K; injection H as <-; injection K as <-; vm_compute; reflexivity|]); constructor]). constructor.
  - split; [reflexivity|]. split; [|vm_compute; reflexivity].
    intros [|[|i]] Hi; [| |lia]; repeat eexists; simpl; try reflexivity; vm_compute; discriminate.
Qed.

Print Assumptions C13_not_reached.
Print Assumptions C13_first_crossing.
Print Assumptions C13_exactly_at_threshold.
Print Assumptions C13_total_refuted.
Print Assumptions C13_missing_value_refuted.
Print Assumptions C14_higher_threshold_no_later.
Print Assumptions C14_columns_ordered.
Print Assumptions C14_columns_ordered_refuted.
Print Assumptions C15_cv_segment_is_tail_partial.
Print Assumptions C15_starts_at_first_cv_row_refuted.
Print Assumptions C56_capacities_at_cycles.
Print Assumptions C56_total_refuted.

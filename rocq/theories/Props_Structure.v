(** C08: structured data are the regular cycles, completely. *)
From Coq Require Import Sorted.
From Verif Require Import Py Num Model_Raw Model_Interp Spec_Interp Model_Structure Spec_Structure Proofs_Structure.

(** C08: every row of the result belongs to a cycle of the raw data that is
    neither diagnostic nor excluded, and to a step with at least two records of
    the direction it is labelled with. *)
Theorem C08_only_regular_cycles :
  forall raw ind has_wf diag v n ca da exclude col out r,
  interpolate_cycles raw ind has_wf diag v n ca da exclude col = Ok out -> In r out ->
  (exists w, In w raw /\ cycle_index w = i_cycle r) /\ regular diag (i_cycle r) /\ ~ In (i_cycle r) exclude /\
  (2 <= length (rows_of_step raw (i_cycle r) (i_step r)))%nat /\
  step_is_chg_state (rows_of_step raw (i_cycle r) (i_step r)) (i_chg r) ind = true.
Proof. exact cycles_only. Qed.

(** C08: every such step contributes exactly [n] rows, on the grid of its axis,
    and every value is the piecewise-linear interpolant of that step's own
    records. *)
Theorem C08_each_step_contributes_resolution_rows :
  forall raw ind has_wf diag v n ca da exclude col out c s chg a b,
  interpolate_cycles raw ind has_wf diag v n ca da exclude col = Ok out ->
  regular diag c -> ~ In c exclude -> (2 <= length (rows_of_step raw c s))%nat ->
  step_is_chg_state (rows_of_step raw c s) chg ind = true ->
  axis_range raw (rows_of_step raw c s) (axis_used raw has_wf diag ca da chg) (range_given v) = Ok (Some a, Some b) ->
  a < b ->
  ForallOrdPairs (fun r1 r2 => forall x1 x2, axis_val (axis_used raw has_wf diag ca da chg) r1 = Some x1 ->
      axis_val (axis_used raw has_wf diag ca da chg) r2 = Some x2 -> ~ x1 == x2) (rows_of_step raw c s) ->
  let block := filter (is_key3 c s chg) out in
  let samples := map (fun r => (match axis_val (axis_used raw has_wf diag ca da chg) r with Some x => x | None => 0 end, col r))
                     (rows_of_step raw c s) in
  length block = n /\ Forall2 Qeq (map i_x block) (linspace a b n) /\
  forall r, In r block -> interpolant samples (i_x r) (i_y r).
Proof. exact cycles_block_full. Qed.

(** C08: discharge rows come first, then charge rows, each in increasing order
    of cycles. *)
Theorem C08_ordered_by_cycle :
  forall raw ind has_wf diag v n ca da exclude col out,
  interpolate_cycles raw ind has_wf diag v n ca da exclude col = Ok out ->
  exists d c, out = d ++ c /\ (forall r, In r d -> i_chg r = false) /\ (forall r, In r c -> i_chg r = true) /\
    StronglySorted (fun a b => i_cycle a <= i_cycle b)%Z d /\ StronglySorted (fun a b => i_cycle a <= i_cycle b)%Z c.
Proof. exact cycles_order. Qed.

(** Non-vacuity: two regular cycles around a diagnostic one, each with a
    charge step 1 and a discharge step 2. *)
Definition mk (c s : Z) (t v q d : Q) : row :=
  {| cycle_index := c; step_index := s; test_time := Some t; voltage := Some v; current := Some 1;
     charge_capacity := Some q; discharge_capacity := Some d; charge_energy := Some 0; discharge_energy := Some 0;
     internal_resistance := None; temperature := None; date_time := Some 0%Z;
     wf_chg_cap := None; wf_dis_cap := None |}.
Definition cyc (c : Z) : list row :=
  [mk c 1 0 (28 # 10) 0 0; mk c 1 1 3 1 0; mk c 1 2 (35 # 10) 2 0;
   mk c 2 3 (35 # 10) 2 0; mk c 2 4 3 2 1; mk c 2 5 (28 # 10) 2 2].
Definition ex_raw := cyc 3 ++ cyc 2 ++ cyc 5.
Definition ex_run := interpolate_cycles ex_raw true false (Some [2%Z]) None 3 AxCharge AxVoltage [] test_time.
Example C08_hyps : exists out, ex_run = Ok out /\
  map (fun r => (i_cycle r, i_chg r, Qred (i_x r), option_map Qred (i_y r))) out =
   [(3%Z, false, 14 # 5, Some 5); (3%Z, false, 63 # 20, Some (37 # 10)); (3%Z, false, 7 # 2, Some 3);
    (5%Z, false, 14 # 5, Some 5); (5%Z, false, 63 # 20, Some (37 # 10)); (5%Z, false, 7 # 2, Some 3);
    (3%Z, true, 0, Some 0); (3%Z, true, 1, Some 1); (3%Z, true, 2, Some 2);
    (5%Z, true, 0, Some 0); (5%Z, true, 1, Some 1); (5%Z, true, 2, Some 2)] /\
  regular (Some [2%Z]) 3 /\ (2 <= length (rows_of_step ex_raw 3 1))%nat /\
  step_is_chg_state (rows_of_step ex_raw 3 1) true true = true /\
  axis_range ex_raw (rows_of_step ex_raw 3 1) (axis_used ex_raw false (Some [2%Z]) AxCharge AxVoltage true) (range_given None)
    = Ok (Some 0, Some 2).
Proof.
  eexists. split; [vm_compute; reflexivity|]. split; [vm_compute; reflexivity|].
  split; [simpl; intros [H|[]]; discriminate H|]. split; [vm_compute; auto|].
  split; vm_compute; reflexivity.
Qed.

Print Assumptions C08_only_regular_cycles.
Print Assumptions C08_each_step_contributes_resolution_rows.
Print Assumptions C08_ordered_by_cycle.

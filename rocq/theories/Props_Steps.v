(** C06: charge / discharge classification of steps. *)
From Verif Require Import Py Num Model_Raw Proofs_Steps.

(** C06: with the same default, a step is a charge step or a discharge step,
    never both and never neither. *)
Theorem C06_charge_discharge_partition :
  forall (s : list row) (b : bool), step_is_chg s b = negb (step_is_dchg s b).
Proof. exact complement. Qed.

(** C06: for steps with complete capacities and no single-sample spike, the
    verdict is decided by the net change of the two capacities; undecided steps
    follow the default.  [net] is last minus first value; [no_spike] says no
    consecutive increase exceeds 99% of the column's range. *)
Theorem C06_direction_is_net_change :
  forall s cc dc b,
  map charge_capacity s = map Some cc -> map discharge_capacity s = map Some dc ->
  (2 <= length s)%nat -> no_spike cc -> no_spike dc ->
  (net dc < net cc -> 0 < net cc -> step_is_chg s b = true) /\
  (net cc < net dc -> 0 < net dc -> step_is_dchg s b = true) /\
  (net cc == net dc \/ (net cc <= 0 /\ net dc <= 0) ->
     forall chg, step_is_chg_state s chg b = Bool.eqb chg b).
Proof. exact classify_net. Qed.

Definition mkrow (c d : num) : row :=
  {| cycle_index := 1; step_index := 1; test_time := Some 0; voltage := Some 3; current := Some 1;
     charge_capacity := c; discharge_capacity := d; charge_energy := Some 0; discharge_energy := Some 0;
     internal_resistance := None; temperature := None; date_time := Some 0%Z;
     wf_chg_cap := None; wf_dis_cap := None |}.

(** Finding: with the charge capacity missing, a step in which only the
    discharge capacity rises is called a charge step. *)
Theorem C06_discharge_only_is_discharge_refuted :
  exists s, map charge_capacity s = [None; None; None] /\
    map discharge_capacity s = [Some 0; Some 1; Some 2] /\
    forall b, step_is_chg s b = true /\ step_is_dchg s b = false.
Proof.
  exists [mkrow None (Some 0); mkrow None (Some 1); mkrow None (Some 2)].
  repeat split; destruct b; vm_compute; reflexivity.
Qed.

(** Finding: a two-row step that only charges is called a discharge step,
    because its only difference counts as a spike. *)
Theorem C06_two_row_charge_is_charge_refuted :
  exists s, map charge_capacity s = [Some 0; Some 1] /\
    map discharge_capacity s = [Some 0; Some 0] /\
    forall b, step_is_chg s b = false /\ step_is_dchg s b = true.
Proof.
  exists [mkrow (Some 0) (Some 0); mkrow (Some 1) (Some 0)].
  repeat split; destruct b; vm_compute; reflexivity.
Qed.

(** Non-vacuity: a three-row charge step meets all hypotheses. *)
Definition ex_step := [mkrow (Some 0) (Some 5); mkrow (Some 1) (Some 5); mkrow (Some 2) (Some 5)].
Example C06_hyps : map charge_capacity ex_step = map Some [0; 1; 2] /\
  map discharge_capacity ex_step = map Some [5; 5; 5] /\ no_spike [0; 1; 2] /\ no_spike [5; 5; 5] /\
  net [5; 5; 5] < net [0; 1; 2] /\ step_is_chg ex_step false = true.
Proof.
  repeat split.
  - intros i a b Ha Hb. exists 2, 0. repeat split; simpl; auto.
    destruct i as [|[|[|i]]]; simpl in *; try discriminate; injection Ha as <-; injection Hb as <-; lra.
  - intros i a b Ha Hb. exists 5, 5. repeat split; simpl; auto.
    destruct i as [|[|[|i]]]; simpl in *; try discriminate; injection Ha as <-; injection Hb as <-; lra.
Qed.

Print Assumptions C06_charge_discharge_partition.
Print Assumptions C06_direction_is_net_change.
Print Assumptions C06_discharge_only_is_discharge_refuted.
Print Assumptions C06_two_row_charge_is_charge_refuted.

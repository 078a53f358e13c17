(** C09 - C12, C55: the cycle summary.  The vocabulary is in Spec_Summary. *)
From Coq Require Import Sorted.
From Verif Require Import Py Num Model_Raw Model_Structure Spec_Structure Model_Summary Spec_Summary Proofs_Summary.

(** C09: the throughput in row [i] is the total of the per-cycle values of rows
    0..i (NaN exactly when the row's own value is NaN). *)
Theorem C09_throughput_is_running_total :
  forall raw diag nominal full ratio vmin vmax e out,
  summarize_cycles raw diag nominal full ratio vmin vmax e = Ok out ->
  (forall i s, nth_error out i = Some s ->
     match s_chg s with
     | Some _ => exists t, s_chg_thr s = Some t /\ t == total (map s_chg (firstn (S i) out))
     | None => s_chg_thr s = None
     end) /\
  (forall i s, nth_error out i = Some s ->
     match s_chg_en s with
     | Some _ => exists t, s_en_thr s = Some t /\ t == total (map s_chg_en (firstn (S i) out))
     | None => s_en_thr s = None
     end).
Proof. exact throughputs. Qed.

(** C09: hence throughputs never decrease when the per-cycle values are not negative. *)
Theorem C09_throughput_never_decreases :
  forall raw diag nominal full ratio vmin vmax e out,
  summarize_cycles raw diag nominal full ratio vmin vmax e = Ok out ->
  forall i j si sj ti tj, (i <= j)%nat -> nth_error out i = Some si -> nth_error out j = Some sj ->
  ((forall s q, In s out -> s_chg s = Some q -> 0 <= q) ->
     s_chg_thr si = Some ti -> s_chg_thr sj = Some tj -> ti <= tj) /\
  ((forall s q, In s out -> s_chg_en s = Some q -> 0 <= q) ->
     s_en_thr si = Some ti -> s_en_thr sj = Some tj -> ti <= tj).
Proof. exact throughputs_mono. Qed.

(** C10: the summary lists all regular cycles in increasing order, and drops
    the last one exactly when there is not just one and the end of the run is
    not complete. *)
Theorem C10_only_last_cycle_dropped :
  forall raw diag nominal full ratio vmin vmax e out,
  summarize_cycles raw diag nominal full ratio vmin vmax e = Ok out ->
  exists cs, regular_cycles raw diag cs /\
    (length cs = 1%nat \/ complete_end raw cs ratio vmin vmax -> map s_cycle out = cs) /\
    (length cs <> 1%nat -> ~ complete_end raw cs ratio vmin vmax -> map s_cycle out = removelast cs).
Proof. exact last_rule. Qed.

(** C11: when the cycles of the file are numbered 0, 1, 2, ... without gaps, the
    charge duration of a row comes from the row's own cycle. *)
Theorem C11_duration_of_own_cycle_partial :
  forall raw diag nominal full ratio vmin vmax e out s n,
  (forall c, (exists r, In r raw /\ cycle_index r = c) <-> (0 <= c < Z.of_nat n)%Z) ->
  summarize_cycles raw diag nominal full ratio vmin vmax e = Ok out -> In s out ->
  forall d, s_duration s = Some d <-> duration_of (of_cycle raw (s_cycle s)) (nominal * full) d.
Proof. exact duration_contiguous. Qed.

(** C12: the paused time. *)
Theorem C12_paused_is_largest_gap :
  forall times threshold, paused_spec times threshold (max_paused times threshold).
Proof. exact max_paused_spec. Qed.
(** C12: paused_intervals has an entry for every cycle, computed from that cycle. *)
Theorem C12_paused_intervals :
  forall raw, (forall r, In r raw -> exists p, In (cycle_index r, p) (paused_intervals raw)) /\
  forall c p, In (c, p) (paused_intervals raw) ->
    (exists r, In r raw /\ cycle_index r = c) /\ paused_spec (map date_time (of_cycle raw c)) 3600 p.
Proof. exact paused_intervals_correct. Qed.

(** C55: every other value of a summary row is computed from the row's own cycle. *)
Theorem C55_summary_row_describes_own_cycle :
  forall raw diag nominal full ratio vmin vmax e out s,
  summarize_cycles raw diag nominal full ratio vmin vmax e = Ok out -> In s out ->
  let rows := of_cycle raw (s_cycle s) in
  reports_max (map discharge_capacity rows) (s_dis s) /\
  reports_max (map charge_capacity rows) (s_chg s) /\
  reports_max (map temperature rows) (s_tmax s) /\
  reports_min (map temperature rows) (s_tmin s) /\
  (forall q, s_dis_en s = Some q -> is_max (map discharge_energy rows) q /\ Qabs q <= e) /\
  (forall q, s_chg_en s = Some q -> is_max (map charge_energy rows) q /\ Qabs q <= e) /\
  (forall q, s_eff s = Some q -> exists d c, is_max (map discharge_energy rows) d /\
      is_max (map charge_energy rows) c /\ ~ c == 0 /\ q == d / c) /\
  (forall t, s_date s = Some t <-> first_stamp rows t) /\
  paused_spec (map date_time rows) 3600 (s_paused s).
Proof. exact summary_own. Qed.

(** C55: resistance (last known), mean temperature, energies with the error
    threshold, efficiency and the time-temperature integral (degree minutes), again
    from the row's own cycle. *)
Theorem C55_resistance_means_and_integral :
  forall raw diag nominal full ratio vmin vmax e out s,
  summarize_cycles raw diag nominal full ratio vmin vmax e = Ok out -> In s out ->
  let rows := of_cycle raw (s_cycle s) in
  (forall q, s_res s = Some q <-> last_known internal_resistance rows q) /\
  reports_mean (map temperature rows) (s_tavg s) /\
  reports_energy (map discharge_energy rows) e (s_dis_en s) /\
  reports_energy (map charge_energy rows) e (s_chg_en s) /\
  (s_eff s = None <-> forall d c, is_max (map discharge_energy rows) d -> is_max (map charge_energy rows) c -> c == 0) /\
  (s_tti s = None <-> (2 <= length rows)%nat /\ exists r, In r rows /\ (date_time r = None \/ temperature r = None)) /\
  (forall pts, map (fun r => match date_time r, temperature r with Some t, Some y => Some (t, y) | _, _ => None end) rows = map Some pts ->
     exists q, s_tti s = Some q /\ 120 * q == area2 pts).
Proof. exact summary_own2. Qed.

(** ** Concrete runs: every cycle charges to 1.1 Ah and discharges to 1.1 Ah
    between 2 V and 3.6 V; [t] is the time stamp of the first row. *)
Definition mk (c s t : Z) (v i q d : Q) : row :=
  {| cycle_index := c; step_index := s; test_time := Some (inject_Z t); voltage := Some v; current := Some i;
     charge_capacity := Some q; discharge_capacity := Some d; charge_energy := Some q; discharge_energy := Some d;
     internal_resistance := None; temperature := Some 25; date_time := Some t;
     wf_chg_cap := None; wf_dis_cap := None |}.
Definition cyc (c t dur : Z) : list row :=
  [mk c 1 t 3 1 0 0; mk c 1 (t + dur) (36 # 10) 1 (11 # 10) 0;
   mk c 2 (t + dur + 100) 2 (-1) (11 # 10) (11 # 10)].
Definition run (raw : list row) (diag : option (list Z)) :=
  summarize_cycles raw diag (11 # 10) (8 # 10) (97 # 100) (33 # 10) (33 # 10) 1000000.

(** Non-vacuity of C09, C10, C55. *)
Example C09_hyps : exists out, run (cyc 0 0 60 ++ cyc 1 1000 90 ++ cyc 2 9000 70) None = Ok out /\
  map (fun s => (s_cycle s, option_map Qred (s_chg_thr s), s_duration s)) out =
    [(0%Z, Some (11 # 10), Some 60%Z); (1%Z, Some (11 # 5), Some 90%Z); (2%Z, Some (33 # 10), Some 70%Z)].
Proof. eexists. split; vm_compute; reflexivity. Qed.
Example C10_hyps : exists out, run (cyc 0 0 60 ++ cyc 1 1000 90 ++ [mk 2 1 9000 3 1 0 0]) None = Ok out /\
  map s_cycle out = [0%Z; 1%Z].
Proof. eexists. split; vm_compute; reflexivity. Qed.
Example C55_integral_runs : exists out, run (cyc 0 0 60 ++ cyc 1 1000 90 ++ cyc 2 9000 70) None = Ok out /\
  map (fun s => option_map Qred (s_tti s)) out = [Some (200 # 3); Some (475 # 6); Some (425 # 6)].
Proof. eexists. split; vm_compute; reflexivity. Qed.
Example C11_hyps : forall c, (exists r, In r (cyc 0 0 60 ++ cyc 1 1000 90) /\ cycle_index r = c) <-> (0 <= c < Z.of_nat 2)%Z.
Proof.
  intro c. split.
  - intros (r & H & <-). simpl in H. intuition; subst; simpl; lia.
  - intro H. assert (c = 0 \/ c = 1)%Z as [->| ->] by lia.
    + exists (mk 0 1 0 3 1 0 0). split; simpl; auto.
    + exists (mk 1 1 1000 3 1 0 0). split; simpl; auto.
Qed.
Example C12_hyps : max_paused [Some 0; Some 10; None; Some 99999; Some 105000]%Z 3600 == 5001.
Proof. vm_compute. reflexivity. Qed.

(** Finding (C11): when numbering starts at 1, the row of cycle 1 shows the
    duration of cycle 2 and the last cycle shows none. *)
Theorem C11_duration_of_own_cycle_refuted :
  exists raw out s1 s2, run raw None = Ok out /\ out = [s1; s2] /\ s_cycle s1 = 1%Z /\ s_cycle s2 = 2%Z /\
    duration_of (of_cycle raw 1) ((11 # 10) * (8 # 10)) 60 /\ s_duration s1 = Some 90%Z /\
    duration_of (of_cycle raw 2) ((11 # 10) * (8 # 10)) 90 /\ s_duration s2 = None.
Proof.
  exists (cyc 1 0 60 ++ cyc 2 1000 90).
  assert (S : forall (c t dur : Z), first_stamp (cyc c t dur) t).
  { intros c t dur. exists [], (mk c 1 t 3 1 0 0), (tl (cyc c t dur)). repeat split; auto. }
  assert (F : forall (c t dur : Z), first_stamp (filter (reached ((11 # 10) * (8 # 10))) (cyc c t dur)) (t + dur)).
  { intros c t dur. eexists [], _, _. repeat split; auto. }
  eexists. eexists. eexists. split; [vm_compute; reflexivity|]. split; [reflexivity|].
  split; [reflexivity|]. split; [reflexivity|].
  split. { exists 0%Z, 60%Z. repeat split; [apply (S 1%Z 0%Z 60%Z)|apply (F 1%Z 0%Z 60%Z)]. }
  split; [reflexivity|].
  split. { exists 1000%Z, 1090%Z. repeat split; [apply (S 2%Z 1000%Z 90%Z)|apply (F 2%Z 1000%Z 90%Z)]. }
  reflexivity.
Qed.

(** Finding (C10): the voltage test looks at the last cycle of the file even if
    it is a diagnostic cycle, so a complete last regular cycle is dropped. *)
Theorem C10_complete_last_regular_cycle_kept_refuted :
  exists raw diag out c, run raw diag = Ok out /\ regular_cycles raw diag [1%Z; c] /\
    spans raw c (33 # 10) (33 # 10) /\ discharged raw c (97 # 100) /\ ~ In c (map s_cycle out).
Proof.
  exists (cyc 1 0 60 ++ cyc 2 1000 90 ++ [mk 3 1 5000 (35 # 10) 0 0 0]), (Some [3%Z]). eexists. exists 2%Z.
  split; [vm_compute; reflexivity|]. split; [|split; [|split]].
  - split; [repeat constructor|]. intro c. split.
    + intros [<-|[<-|[]]]; (split; [|simpl; lia]).
      * exists (mk 1 1 0 3 1 0 0). simpl; auto.
      * exists (mk 2 1 1000 3 1 0 0). simpl; auto 8.
    + intros [(r & H & <-) N]. simpl in H, N. intuition; subst; simpl in *; auto; tauto.
  - split.
    + exists (mk 2 2 1190 2 (-1) (11 # 10) (11 # 10)), 2. repeat split; simpl; auto 10.
    + exists (mk 2 1 1090 (36 # 10) 1 (11 # 10) 0), (36 # 10). repeat split; simpl; auto 10.
  - exists (11 # 10), (11 # 10). split; [|split].
    + split; [vm_compute; auto|]. intros q H. vm_compute in H. intuition; try discriminate; match goal with E : Some _ = Some _ |- _ => injection E as <- end; lra.
    + split; [vm_compute; auto|]. intros q H. vm_compute in H. intuition; try discriminate; match goal with E : Some _ = Some _ |- _ => injection E as <- end; lra.
    + lra.
  - vm_compute. intros [H|[]]. discriminate.
Qed.

Print Assumptions C09_throughput_is_running_total.
Print Assumptions C09_throughput_never_decreases.
Print Assumptions C10_only_last_cycle_dropped.
Print Assumptions C10_complete_last_regular_cycle_kept_refuted.
Print Assumptions C11_duration_of_own_cycle_partial.
Print Assumptions C11_duration_of_own_cycle_refuted.
Print Assumptions C12_paused_is_largest_gap.
Print Assumptions C12_paused_intervals.
Print Assumptions C55_summary_row_describes_own_cycle.
Print Assumptions C55_resistance_means_and_integral.

(** C18, C19: the Maccor reader.  The vocabulary is in Spec_Maccor. *)
From Verif Require Import Py Num Model_Maccor Spec_Maccor Proofs_Maccor.

(** C18: every record contributes a value; when cycles change only where a step
    finishes, the computed value is the total of the steps finished earlier in
    the record's cycle plus the record's own contribution.  Partial: records
    after the last finished step are covered only if the cycle does not change
    there, see the refutations below. *)
Theorem C18_accumulates_within_cycle_partial :
  forall rows qy d, exists vals, Forall2 (contributes rows qy d) rows vals /\
  length (quantity_sum qy d rows) = length rows /\
  (cycles_end_with_steps rows -> forall i, (i < length rows)%nat -> settled rows i ->
   exists t x y, nth_error vals i = Some x /\ completed rows vals i t /\
     nth_error (quantity_sum qy d rows) i = Some y /\ y == t + x).
Proof. exact accumulates_all. Qed.

(** C18: within a cycle the value never decreases, if the tester's own counter
    is not negative and does not decrease within a step. *)
Theorem C18_never_decreases_partial :
  forall rows qy d vals, Forall2 (contributes rows qy d) rows vals -> cycles_end_with_steps rows ->
  (forall k x, nth_error vals k = Some x -> 0 <= x) ->
  (forall k x x', ~ finishes_step rows k -> nth_error vals k = Some x -> nth_error vals (S k) = Some x' -> x <= x') ->
  forall i y y', settled rows i -> settled rows (S i) -> one_cycle rows i (S i) ->
  nth_error (quantity_sum qy d rows) i = Some y -> nth_error (quantity_sum qy d rows) (S i) = Some y' -> y <= y'.
Proof. exact never_decreases_all. Qed.

Definition rec (c s : Z) (st : string) (es : Z) (cap : Q) : mrec :=
  {| mc_cycle := c; mc_step := s; mc_state := st; mc_es := es; mc_cap := cap; mc_energy := 0;
     mc_wf_chg_cap := None; mc_wf_dis_cap := None; mc_wf_chg_e := None; mc_wf_dis_e := None |}.

(** C18 fails for a file that ends before the first step of its last cycle is
    finished: that step is given the whole total of the previous cycle. *)
Definition dangling : list mrec :=
  [rec 1 1 "C" 1 1; rec 1 1 "C" 129 2; rec 2 2 "C" 1 3]%string.
Theorem C18_dangling_step_refuted :
  exists rows, cycles_end_with_steps rows /\
  exists i r y, nth_error rows i = Some r /\ (forall j r', (j < i)%nat -> nth_error rows j = Some r' -> mc_cycle r' <> mc_cycle r) /\
    nth_error (quantity_sum Capacity Charge rows) i = Some y /\ ~ y == mc_cap r.
Proof.
  exists dangling. split.
  - intros i r r' H K N. destruct i as [|[|[|i]]]; simpl in H, K; try discriminate; injection H as <-; injection K as <-.
    + simpl in N. congruence.
    + unfold finishes_step. simpl. eexists _, _. repeat split; try reflexivity; simpl; lia.
  - exists 2%nat, (rec 2 2 "C" 1 3), (3 + 2). split; [reflexivity|]. split; [|split; [reflexivity|discriminate]].
    intros j r' L H. destruct j as [|[|j]]; [| |lia]; simpl in H; injection H as <-; discriminate.
Qed.

(** C18 fails when the cycle number changes without an end code: the new cycle
    continues the old one's total. *)
Definition no_end_code : list mrec :=
  [rec 1 1 "C" 129 2; rec 1 2 "C" 1 1; rec 2 3 "C" 129 5; rec 2 4 "C" 1 1]%string.
Theorem C18_unmarked_cycle_change_refuted :
  exists rows i r y, nth_error rows i = Some r /\
    (forall j r', (j < i)%nat -> nth_error rows j = Some r' -> mc_cycle r' <> mc_cycle r) /\
    nth_error (quantity_sum Capacity Charge rows) i = Some y /\ ~ y == mc_cap r.
Proof.
  exists no_end_code, 2%nat, (rec 2 3 "C" 129 5), (5 + 2). split; [reflexivity|]. split; [|split; [reflexivity|discriminate]].
  intros j r' L H. destruct j as [|[|j]]; [| |lia]; simpl in H; injection H as <-; discriminate.
Qed.

(** The hypotheses are met by a file with two cycles, a rest, and an unfinished
    last step within the second cycle. *)
Definition two_cycles : list mrec :=
  [rec 1 1 "C" 1 1; rec 1 1 "C" 129 2; rec 1 2 "C" 132 3; rec 1 3 "D" 133 4;
   rec 2 1 "C" 1 7; rec 2 1 "C" 129 8; rec 2 2 "R" 129 8; rec 2 3 "C" 1 1]%string.
Example C18_hyps : cycles_end_with_steps two_cycles /\ (forall i, (i < length two_cycles)%nat -> settled two_cycles i).
Proof.
  split.
  - intros i r r' H K N. do 8 (destruct i as [|i]; [simpl in H, K; try discriminate; injection H as <-; injection K as <-;
      first [exfalso; apply N; reflexivity | unfold finishes_step; simpl; eexists _, _; repeat split; try reflexivity; simpl; lia]|]).
    destruct i; discriminate.
  - intros i L. right. intros e F M. assert (e = 6)%nat as ->.
    { assert (6 <= e)%nat. { apply M. unfold finishes_step. simpl. eexists _, _. repeat split; try reflexivity; simpl; lia. }
      destruct F as (r & r' & _ & K & _). assert (S e < length two_cycles)%nat by (apply nth_error_Some; congruence). simpl in *. lia. }
    intros k r r' Lk H K. assert (k = 6 \/ k = 7)%nat as [-> | ->] by lia; simpl in *; injection H as <-; injection K as <-; reflexivity.
Qed.
Example C18_run : Forall2 Qeq (quantity_sum Capacity Charge two_cycles) [1; 2; 5; 5; 7; 8; 8; 9].
Proof. vm_compute. repeat constructor. Qed.

(** C19: a header line made of the fields in order, each followed by its value,
    gives back exactly the values, if each field occurs only where it was put. *)
Theorem C19_values_recovered :
  forall pre fvs, fvs <> [] -> unambiguous pre fvs ->
  split_string_by_fields (header pre fvs) (map fst fvs) = Ok (map snd fvs).
Proof. exact fields_recovered. Qed.
(** C19: whatever is returned is one value per field, the line is the fields in
    order with these values, and no field occurs in the value before it or
    again after it. *)
Theorem C19_result_reproduces_line :
  forall s fields vs, split_string_by_fields s fields = Ok vs ->
  exists pre, length vs = length fields /\ s = header pre (combine fields vs) /\ once_each pre (combine fields vs).
Proof. exact fields_sound. Qed.
(** C19: a missing field raises, and so does a repeated first field. *)
Theorem C19_missing_field_raises :
  forall s fields f, In f fields -> contains f s = false ->
  forall vs, split_string_by_fields s fields <> Ok vs.
Proof. exact missing_field_raises. Qed.
Theorem C19_repeated_field_raises :
  forall a f b c fs vs, split_string_by_fields (a ++ f ++ b ++ f ++ c) (f :: fs) <> Ok vs.
Proof. exact repeated_first_raises. Qed.

Example C19_hyps : split_string_by_fields "Today's Date 11/16/2026  Filename: a.001 Procedure: p"
  ["Today's Date"; "Filename:"; "Procedure:"]%string = Ok [" 11/16/2026  "; " a.001 "; " p"]%string.
Proof. reflexivity. Qed.
Example C19_hyps_unambiguous : unambiguous "" [("A:", "1 "); ("B:", "2")]%string.
Proof.
  assert (G : forall a f b, f <> ""%string -> Proofs_Strings.first_at a f b -> contains f b = false -> 
     (forall p q, (a ++ f ++ b = p ++ f ++ q)%string -> (String.length p < String.length a + String.length f)%nat -> p = a) -> only_there a f b).
  { intros a f b NE F C H p q E. apply (H p q E). destruct (Nat.lt_ge_cases (String.length p) (String.length a + String.length f)) as [K|K]; [exact K|].
    exfalso. assert (E' : ((a ++ f) ++ b = p ++ f ++ q)%string) by (rewrite Proofs_Strings.app_assoc_s; exact E).
    destruct (Proofs_Strings.app_split_le _ _ _ _ E') as (g & _ & ->); [rewrite Proofs_Strings.app_length_s; lia|].
    assert (contains f (g ++ f ++ q) = true) by (apply Proofs_Diagnostic.contains_iff; eauto). congruence. }
  simpl. repeat split; try discriminate; apply G; try discriminate; try reflexivity;
    try (intros p q _; simpl; lia); intros p q E.
  - intro L. destruct p as [|c p]; [reflexivity|]. simpl in E. injection E as <- E. destruct p as [|c p]; [simpl in E; injection E; discriminate|simpl in L; lia].
  - destruct p as [|c p]; [simpl in E; discriminate|]. destruct p as [|c2 p]; [simpl in E; discriminate|]. simpl. lia.
  - intro L. simpl in *. destruct p as [|c p]; [discriminate|]. destruct p as [|c2 p]; [discriminate|]. simpl in E. injection E as <- <- E.
    destruct p as [|c3 p]; [reflexivity|]. simpl in E. injection E as <- E. destruct p as [|c4 p]; [discriminate|simpl in L; lia].
Qed.

Print Assumptions C18_accumulates_within_cycle_partial.
Print Assumptions C18_never_decreases_partial.
Print Assumptions C18_dangling_step_refuted.
Print Assumptions C18_unmarked_cycle_change_refuted.
Print Assumptions C19_values_recovered.
Print Assumptions C19_result_reproduces_line.
Print Assumptions C19_missing_field_raises.
Print Assumptions C19_repeated_field_raises.

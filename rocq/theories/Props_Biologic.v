(** C20 - C23, C59, C60: Biologic files.  The vocabulary is in Spec_Biologic. *)
From Verif Require Import Py Num Model_Biologic Spec_Biologic Proofs_Biologic Proofs_Diagnostic.

(** C20: the cycle numbers begin at 1 plus the rules' start count and advance
    between consecutive records exactly as the rules declare. *)
Theorem C20_numbers_follow_rules :
  forall ns r loops nums, get_cycle_index ns r loops = Ok nums ->
  exists recs, recorded ns loops recs /\ numbered r (1 + adv_cycle_on_start r) recs nums.
Proof. exact cycle_index_numbered. Qed.
(** C20: every non-empty record list with a complete (or no) Loop column is numbered. *)
Theorem C20_always_numbers :
  forall ns r loops, ns <> [] -> (forall l, loops = Some l -> l = [] \/ (length ns <= length l)%nat) ->
  exists nums, get_cycle_index ns r loops = Ok nums.
Proof. exact cycle_index_total. Qed.
(** C20: with rules whose counts are not negative, numbers never decrease and
    are at least 1; if moreover no count exceeds 1, none is skipped. *)
Theorem C20_never_decreases :
  forall ns r loops nums, no_negative r -> get_cycle_index ns r loops = Ok nums ->
  non_decreasing nums /\ forall c, In c nums -> (1 <= c)%Z.
Proof. exact cycle_index_mono. Qed.
Theorem C20_never_skips :
  forall ns r loops nums, no_negative r -> at_most_one r -> get_cycle_index ns r loops = Ok nums ->
  forall i c c', nth_error nums i = Some c -> nth_error nums (S i) = Some c' -> c' = c \/ c' = (c + 1)%Z.
Proof. exact cycle_index_no_skip. Qed.

(** C21: for one technique the exported numbers are the reader's. *)
Theorem C21_export_agrees_with_reader :
  forall r recs nums,
  add_cycle_nums_to_csvs [(r, recs)] = Ok [nums] <-> get_cycle_index (map fst recs) r (Some (map snd recs)) = Ok nums.
Proof. exact csv_agrees. Qed.
(** C21: several techniques: each continues from the last number of the one before. *)
Theorem C21_techniques_continue :
  forall techs out, add_cycle_nums_to_csvs techs = Ok out -> continued 1 techs out.
Proof. intros techs out. exact (csv_continued techs 1 out). Qed.
Theorem C21_never_decreases_across_techniques :
  forall techs out, (forall r recs, In (r, recs) techs -> no_negative r) ->
  add_cycle_nums_to_csvs techs = Ok out -> non_decreasing (concat out).
Proof. exact csv_mono. Qed.

(** C22 *)
Theorem C22_rules_survive_serialization :
  forall r, dicts r -> rules_of_json (json_of_rules r) = Ok r.
Proof. exact rules_roundtrip. Qed.

(** C23: which lines count as headers: those with "Ecell/V" and without "Variables",
    and those with "Cycle Number". *)
Theorem C23_header_lines :
  forall line,
  (biologic_header line = true <-> (exists a b, line = (a ++ "Ecell/V" ++ b)%string) /\ ~ exists a b, line = (a ++ "Variables" ++ b)%string) /\
  (novonix_header line = true <-> exists a b, line = (a ++ "Cycle Number" ++ b)%string).
Proof.
  intro line. unfold biologic_header, novonix_header. rewrite andb_true_iff, negb_true_iff, <- not_true_iff_false, !contains_iff. tauto.
Qed.
(** C23: the header found is the first one, and it is found if it is on one of
    the first search_lines - 1 lines.  Partial: not on line search_lines. *)
Theorem C23_biologic_header_partial :
  forall ext n lines, ext = ".csv"%string \/ ext = ".txt"%string ->
  (forall k, (exists sep, get_file_type ext n lines = Ok (sep, k, (k + 1)%nat)) <->
     first_header biologic_header lines k /\ (k < n)%nat) /\
  (forall e, get_file_type ext n lines = Err e <->
     e = LookupError /\ forall k, first_header biologic_header lines k -> (n <= k)%nat).
Proof.
  intros ext n lines E. unfold get_file_type.
  assert (H0 : biologic_header "" = false) by reflexivity.
  assert (S : exists sep, (if String.eqb ext ".csv" then Ok ";" else if String.eqb ext ".txt" then Ok (String (ascii_of_nat 9) "") else Err TypeError)%string = Ok sep)
    by (destruct E as [-> | ->]; eexists; reflexivity).
  destruct S as (sep & ->). cbn [bind].
  pose proof (search_found biologic_header n lines H0) as F. pose proof (search_fails biologic_header n lines H0) as G.
  destruct (search_header biologic_header n 1 n lines) as [h|e0]; cbn [bind]; split.
  - intro k. rewrite <- F. split; [intros (s & K); congruence|intro K; exists sep; congruence].
  - intro e. rewrite <- G. split; discriminate.
  - intro k. rewrite <- F. split; [intros (s & K); congruence|discriminate].
  - intro e. rewrite <- G. split; congruence.
Qed.
Theorem C23_novonix_header_partial :
  forall lines,
  (forall k, novonix_find_header lines = Ok k <-> first_header novonix_header lines k /\ (k < 500)%nat) /\
  (forall e, novonix_find_header lines = Err e <->
     e = LookupError /\ forall k, first_header novonix_header lines k -> (500 <= k)%nat).
Proof.
  intro lines. split; intro x.
  - exact (search_found novonix_header 500 lines eq_refl x).
  - exact (search_fails novonix_header 500 lines eq_refl x).
Qed.
(** C23 fails on the last announced line: whatever search_lines is, a file whose
    header is on line search_lines is rejected. *)
Theorem C23_last_line_refuted :
  forall n pre, (1 <= n)%nat -> length pre = (n - 1)%nat -> (forall x, In x pre -> biologic_header x = false) ->
  let lines := pre ++ ["Ecell/V"%string] in
  first_header biologic_header lines n /\ get_file_type ".csv" n lines = Err LookupError.
Proof.
  intros n pre N L P lines. destruct (last_line_missed biologic_header n pre "Ecell/V" eq_refl L N P eq_refl) as (A & B).
  split; [exact A|]. unfold get_file_type. cbn [String.eqb Ascii.eqb Bool.eqb bind]. fold lines in B. rewrite B. reflexivity.
Qed.

(** C59: in the table read from a Biologic file with distinct column names, the
    column of header [c] at position [j] holds the converted items number [j] of
    the lines that have so many, in file order. *)
Theorem C59_columns_hold_items :
  forall V (conv : string -> string -> result V) columns rows raw, NoDup columns -> read_table conv columns rows = Ok raw ->
  forall j c, nth_error columns j = Some c ->
  exists vals, sget raw c = Some vals /\
    column_values conv c j (filter (fun items => (j <? length items)%nat) rows) vals.
Proof. exact @table_columns. Qed.
(** C59: two columns of the same length are aligned: their k-th values come from
    the same line, for all k.  (The frame is built from columns of equal length.) *)
Theorem C59_equal_columns_are_aligned :
  forall V (conv : string -> string -> result V) columns rows raw j1 j2 c1 c2 v1 v2,
  NoDup columns -> read_table conv columns rows = Ok raw ->
  nth_error columns j1 = Some c1 -> nth_error columns j2 = Some c2 ->
  sget raw c1 = Some v1 -> sget raw c2 = Some v2 -> length v1 = length v2 ->
  exists lines, column_values conv c1 j1 lines v1 /\ column_values conv c2 j2 lines v2.
Proof. exact @table_aligned. Qed.
(** C59: and every table whose lines are not longer than the header and whose
    items convert is read. *)
Theorem C59_table_is_read :
  forall V (conv : string -> string -> result V) columns rows, NoDup columns ->
  (forall items, In items rows -> (length items <= length columns)%nat) ->
  (forall items j c s, In items rows -> nth_error columns j = Some c -> nth_error items j = Some s -> exists v, conv c s = Ok v) ->
  exists raw, read_table conv columns rows = Ok raw.
Proof. exact @table_complete. Qed.

(** C60: slots A to I: different channels have different ids. *)
Theorem C60_channel_ids_distinct_partial :
  forall a n b m, (1 <= a <= 9)%Z -> (1 <= b <= 9)%Z -> (1 <= n)%Z -> (1 <= m)%Z ->
  channel_id a n = channel_id b m -> a = b /\ n = m.
Proof. exact channel_inj. Qed.
(** C60 fails from slot K on: A11 and K1 are both channel 111. *)
Theorem C60_channel_ids_collide_refuted :
  exists a n b m, (1 <= a <= 26)%Z /\ (1 <= b <= 26)%Z /\ (1 <= n)%Z /\ (1 <= m)%Z /\
  (a, n) <> (b, m) /\ channel_id a n = channel_id b m.
Proof. exists 1%Z, 11%Z, 11%Z, 1%Z. split; [lia|]. split; [lia|]. split; [lia|]. split; [lia|]. split; [discriminate|reflexivity]. Qed.

(** Non-vacuity *)
Definition sample_rules : rules :=
  {| tech_num := 1; tech_does_loop := true; adv_cycle_on_start := 0; adv_cycle_on_tech_loop := 1;
     adv_cycle_seq_transitions := [((2, 0), 1); ((3, 4), 1)]%Z; debug_adv_cycle_on_step_transitions := [] |}.
Example C20_run : get_cycle_index [0; 1; 2; 0; 1; 2; 3; 4; 0]%Z sample_rules (Some [0; 0; 0; 0; 0; 0; 0; 0; 1]%Z)
  = Ok [1; 1; 1; 2; 2; 2; 2; 3; 4]%Z.
Proof. reflexivity. Qed.
Example C20_hyps : no_negative sample_rules /\ at_most_one sample_rules /\ dicts sample_rules.
Proof.
  split; [|split].
  - split; [simpl; lia|]. split; [simpl; lia|]. intros p n I. simpl in I. destruct I as [I|[I|[]]]; injection I as <- <-; lia.
  - split; [simpl; lia|]. intros p n I. simpl in I. destruct I as [I|[I|[]]]; injection I as <- <-; lia.
  - split; simpl; repeat constructor; simpl; intuition congruence.
Qed.
Example C21_run : add_cycle_nums_to_csvs [(sample_rules, [(0, 0); (2, 0); (0, 0)]%Z); (sample_rules, [(3, 0); (4, 0); (4, 1)]%Z)]
  = Ok [[1; 1; 2]; [2; 3; 4]]%Z.
Proof. reflexivity. Qed.
Example C23_run : get_file_type ".txt" 200 ["EC-Lab ASCII FILE"; "Variables Ecell/V"; "mode time/s Ecell/V I/mA"]%string
  = Ok (String (ascii_of_nat 9) "", 3%nat, 4%nat).
Proof. reflexivity. Qed.
Example C23_refuted_hyps : length (repeat ""%string 199) = (200 - 1)%nat /\ forall x, In x (repeat ""%string 199) -> biologic_header x = false.
Proof. split; [reflexivity|]. intros x I. apply repeat_spec in I. subst. reflexivity. Qed.
Example C59_run : read_table (fun c s => Ok (c ++ "=" ++ s)%string) ["Ns"; "I/mA"]%string [["0"; "1.5"]; ["1"; "2"]]%string
  = Ok [("Ns", ["Ns=0"; "Ns=1"]); ("I/mA", ["I/mA=1.5"; "I/mA=2"])]%string.
Proof. reflexivity. Qed.

Print Assumptions C20_numbers_follow_rules.
Print Assumptions C20_always_numbers.
Print Assumptions C20_never_decreases.
Print Assumptions C20_never_skips.
Print Assumptions C21_export_agrees_with_reader.
Print Assumptions C21_techniques_continue.
Print Assumptions C21_never_decreases_across_techniques.
Print Assumptions C22_rules_survive_serialization.
Print Assumptions C23_header_lines.
Print Assumptions C23_biologic_header_partial.
Print Assumptions C23_novonix_header_partial.
Print Assumptions C23_last_line_refuted.
Print Assumptions C59_columns_hold_items.
Print Assumptions C59_equal_columns_are_aligned.
Print Assumptions C59_table_is_read.
Print Assumptions C60_channel_ids_distinct_partial.
Print Assumptions C60_channel_ids_collide_refuted.

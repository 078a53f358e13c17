(** C24 - C27, C61: the smaller readers and the splicing tool.  The vocabulary is
    in Spec_Readers. *)
From Verif Require Import Py Num Model_Readers Spec_Readers Proofs_Readers Proofs_Strings.

(** C24: the written records are the record lines, in order, each with the cycle
    id of the nearest cycle line and the step id and resistance of the nearest
    step line before it. *)
Theorem C24_records_inherit_cycle_and_step :
  forall ir_index lines out, nw_lines ir_index nw_start lines = Ok out ->
  Forall2 (record_of ir_index lines) (record_positions lines) out.
Proof. exact neware_records. Qed.
(** C24: the step clock is hours, minutes and seconds. *)
Theorem C24_step_clock :
  forall num_of hs ms ss h m s, char_free ":" hs -> char_free ":" ms -> char_free ":" ss ->
  num_of hs = Ok h -> num_of ms = Ok m -> num_of ss = Ok s ->
  exists t, nw_step_time num_of (hs ++ ":" ++ ms ++ ":" ++ ss) = Ok t /\ t == h * 3600 + m * 60 + s.
Proof. exact neware_clock. Qed.
(** C24: test time starts at 0, advances with the step clock while that runs
    forward, stands still where it restarts; hence it never decreases. *)
Theorem C24_test_time_from_step_clock :
  forall clock, length (nw_test_time clock) = length clock /\
  (forall t, nth_error (nw_test_time clock) 0 = Some t -> t == 0) /\
  forall i x y a b, nth_error clock i = Some x -> nth_error clock (S i) = Some y ->
    nth_error (nw_test_time clock) i = Some a -> nth_error (nw_test_time clock) (S i) = Some b ->
    (x <= y -> b - a == y - x) /\ (y < x -> b - a == 0).
Proof. exact neware_time. Qed.
Theorem C24_test_time_never_decreases :
  forall clock i j a b, (i <= j)%nat -> nth_error (nw_test_time clock) i = Some a ->
  nth_error (nw_test_time clock) j = Some b -> a <= b.
Proof. exact neware_time_mono. Qed.

(** C25: the label of a current. *)
Theorem C25_label_by_sign_of_current :
  forall i, (decide_step_index i = 1%Z <-> -(1 # 1000000) < i < 1 # 1000000) /\
  (decide_step_index i = 3%Z <-> i <= -(1 # 1000000)) /\ (decide_step_index i = 2%Z <-> 1 # 1000000 <= i).
Proof. exact label_spec. Qed.
(** C25: for files of at least two rows, the step time of a row is the time since
    the first row of its run.  Partial: the last row only if it continues the run
    of the row before. *)
Theorem C25_step_time_since_run_start_partial :
  forall rows, (2 <= length rows)%nat ->
  exists out, ba_steps rows = Ok out /\ length out = length rows /\
  forall i cur t, nth_error rows i = Some (cur, t) ->
  (S i < length rows \/ option_map (fun r => decide_step_index (fst r)) (nth_error rows (i - 1)) = Some (decide_step_index cur))%nat ->
  exists b cb tb st, run_start (map (fun r => decide_step_index (fst r)) rows) b i /\ nth_error rows b = Some (cb, tb) /\
    nth_error out i = Some (decide_step_index cur, st) /\ st == t - tb.
Proof. exact archive_steps. Qed.
(** C25 fails when the last row starts a new step: its clock does not restart.
    And a file with one row cannot be read at all. *)
Theorem C25_last_row_refuted :
  exists rows out cur t st, ba_steps rows = Ok out /\ last_error rows = Some (cur, t) /\ last_error out = Some (decide_step_index cur, st) /\
    run_start (map (fun r => decide_step_index (fst r)) rows) (length rows - 1) (length rows - 1) /\ ~ st == t - t.
Proof.
  exists [(1, 0); (1, 10); (-1, 20)], [(2%Z, 0 - 0); (2%Z, 10 - 0); (3%Z, 20 - 0)], (-1), 20, (20 - 0).
  split; [reflexivity|]. split; [reflexivity|]. split; [reflexivity|]. split; [|discriminate].
  split; [simpl; lia|]. split; [|right; discriminate]. intros j L. simpl in L. assert (j = 2)%nat as -> by lia. reflexivity.
Qed.
Theorem C25_single_row_refuted : forall r, ba_steps [r] = Err IndexError.
Proof. intros [c t]. reflexivity. Qed.

(** C26: the columns of every row, for tables with known step types; charge rows
    keep their value, rests keep it in the discharge column, discharge rows hold
    the cycle's reference minus the value.  Partial: the discharge energy only
    in cycles with a charge row. *)
Theorem C26_columns_of_own_cycle_partial :
  forall rows out, novonix_columns rows = Ok out ->
  Forall2 (fun r o =>
    let charging := (nv_step r = 1 \/ nv_step r = 7 \/ nv_step r = 8)%Z in
    (charging -> nv_charge_cap o = Some (nv_cap r) /\ nv_charge_en o = Some (nv_en r) /\
                 nv_discharge_cap o = None /\ nv_discharge_en o = None) /\
    (~ charging -> nv_charge_cap o = None /\ nv_charge_en o = None) /\
    (nv_step r = 0%Z -> nv_discharge_cap o = Some (nv_cap r) /\ nv_discharge_en o = Some (nv_en r)) /\
    (~ charging -> nv_step r <> 0%Z ->
      (exists m d, cycle_reference nv_cap rows (nv_cycle r) m /\ nv_discharge_cap o = Some d /\ d == m - nv_cap r) /\
      ((exists r', In r' rows /\ nv_cycle r' = nv_cycle r /\ nv_is_charge (nv_step r') = true) ->
       exists m d, cycle_reference nv_en rows (nv_cycle r) m /\ nv_discharge_en o = Some d /\ d == m - nv_en r))) rows out.
Proof. exact novonix_spec. Qed.
Theorem C26_known_steps_are_read :
  forall rows, (forall r, In r rows -> In (nv_step r) [0; 1; 2; 7; 8; 9; 10]%Z) <-> exists out, novonix_columns rows = Ok out.
Proof. exact novonix_known. Qed.
(** C26 fails for energy in a cycle without charge rows: the reference is a
    capacity, so changing only capacities changes the discharge energy. *)
Theorem C26_energy_uses_capacity_refuted :
  exists rows rows' o o',
    map nv_en rows = map nv_en rows' /\ map nv_cycle rows = map nv_cycle rows' /\ map nv_step rows = map nv_step rows' /\
    novonix_columns rows = Ok [o] /\ novonix_columns rows' = Ok [o'] /\
    match nv_discharge_en o, nv_discharge_en o' with Some a, Some b => ~ a == b | _, _ => False end.
Proof.
  exists [{| nv_cycle := 1; nv_step := 2; nv_cap := 1; nv_en := 4 |}], [{| nv_cycle := 1; nv_step := 2; nv_cap := 2; nv_en := 4 |}].
  eexists _, _. do 3 (split; [reflexivity|]). split; [reflexivity|]. split; [reflexivity|]. simpl. discriminate.
Qed.

(** C27: in the spliced table every column is the first part followed by the
    second part shifted by a constant: 0, or the last value of the first part for
    the columns that must move forward. *)
Theorem C27_parts_kept_up_to_shift :
  forall d1 d2 d, splice d1 d2 = Ok d ->
  forall c col1 col2, sget d1 c = Some col1 -> sget d2 c = Some col2 ->
  exists shift col2', sget d c = Some (col1 ++ col2') /\ Forall2 (fun v v' => v' == v + shift) col2 col2' /\
    (shift == 0 \/ (In c columns_to_update /\ last_error col1 = Some shift)).
Proof. exact splice_columns. Qed.
(** C27: in those columns the second part starts no lower than the first part
    ends, if it did not start below 0, and its internal differences are kept. *)
Theorem C27_columns_move_forward :
  forall d1 d2 d, splice d1 d2 = Ok d ->
  forall c, In c ["Rec#"; "Cyc#"; "Test (Sec)"; "Loop1"; "Loop2"; "Loop3"; "Loop4"]%string ->
  exists col1 y x xs x' xs', sget d1 c = Some col1 /\ last_error col1 = Some y /\ sget d2 c = Some (x :: xs) /\
    sget d c = Some (col1 ++ x' :: xs') /\ length xs' = length xs /\
    (0 <= x -> y <= x') /\
    (forall i a b a' b', nth_error (x :: xs) i = Some a -> nth_error (x :: xs) (S i) = Some b ->
       nth_error (x' :: xs') i = Some a' -> nth_error (x' :: xs') (S i) = Some b' -> b' - a' == b - a).
Proof. exact splice_forward. Qed.

(** C61 *)
Theorem C61_indigo_half_cycles :
  forall rows cell out, indigo_columns rows = Ok (cell, out) ->
  (forall r, In r rows -> in_cell r = cell) /\
  Forall2 (fun r o =>
    (Z.odd (in_half_cycle r) = true -> in_charge_cap o == Qabs (in_coulomb r) / 3600 /\ in_charge_en o == Qabs (in_energy r) /\
       in_discharge_cap o == 0 /\ in_discharge_en o == 0) /\
    (Z.odd (in_half_cycle r) = false -> in_discharge_cap o == Qabs (in_coulomb r) / 3600 /\ in_discharge_en o == Qabs (in_energy r) /\
       in_charge_cap o == 0 /\ in_charge_en o == 0)) rows out.
Proof. exact indigo_spec. Qed.
Theorem C61_mixed_cells_rejected :
  forall rows r r', In r rows -> In r' rows -> in_cell r <> in_cell r' -> indigo_columns rows = Err ValueError.
Proof. exact indigo_mixed. Qed.

(** Non-vacuity *)
Definition q (s : string) : string := String (ascii_of_nat 34) (s ++ String (ascii_of_nat 34) "")%string.
Definition nw_rec (s : string) : string := (",,," ++ join "," (repeat "x" 19) ++ "," ++ s)%string.
Example C24_run : nw_lines 2 nw_start
  [q "1"; ("," ++ q "1" ++ ",7")%string; nw_rec "a"; nw_rec "b"; ("," ++ q "2" ++ ",8")%string; nw_rec "c"; q "2"; nw_rec "d"]
  = Ok (map (fun t => [q (fst (fst t)); q (snd (fst t)); ""%string] ++ repeat "x"%string 19 ++ [snd t])
         [("1", "1", "7"); ("1", "1", "7"); ("1", "2", "8"); ("2", "2", "8")]%string).
Proof. reflexivity. Qed.
Example C24_clock : Forall2 Qeq (nw_test_time [0; 10; 20; 0; 5; 15]) [0; 10; 20; 20; 25; 35].
Proof. repeat constructor. Qed.
Example C25_run : exists out, ba_steps [(1, 0); (1, 10); (0, 20); (-1, 25); (-1, 40)] = Ok out /\
  map fst out = [2; 2; 1; 3; 3]%Z /\ Forall2 Qeq (map snd out) [0; 10; 0; 0; 15].
Proof. eexists. split; [reflexivity|]. split; [reflexivity|]. repeat constructor. Qed.
Example C26_run : exists o, novonix_columns
  [{| nv_cycle := 1; nv_step := 1; nv_cap := 3; nv_en := 9 |}; {| nv_cycle := 1; nv_step := 2; nv_cap := 1; nv_en := 2 |}] = Ok o /\
  map nv_discharge_cap o = [None; Some (3 - 1)] /\ map nv_discharge_en o = [None; Some (9 - 2)].
Proof. eexists. split; [reflexivity|]. split; reflexivity. Qed.
Example C27_run : exists d, splice (map (fun c => (c, [1; 2; 3])) columns_to_update) (map (fun c => (c, [1; 2])) columns_to_update) = Ok d /\
  exists col, sget d "Cyc#" = Some col /\ Forall2 Qeq col [1; 2; 3; 4; 5].
Proof. eexists. split; [reflexivity|]. eexists. split; [reflexivity|]. repeat constructor. Qed.
Example C61_run : exists o, indigo_columns [{| in_cell := 5; in_half_cycle := 1; in_coulomb := -3600; in_energy := 4 |};
  {| in_cell := 5; in_half_cycle := 2; in_coulomb := 7200; in_energy := -4 |}] = Ok (5%Z, o) /\
  Forall2 Qeq (map in_charge_cap o) [1; 0] /\ Forall2 Qeq (map in_discharge_en o) [0; 4].
Proof. eexists. split; [reflexivity|]. split; repeat constructor. Qed.

Print Assumptions C24_records_inherit_cycle_and_step.
Print Assumptions C24_step_clock.
Print Assumptions C24_test_time_from_step_clock.
Print Assumptions C24_test_time_never_decreases.
Print Assumptions C25_label_by_sign_of_current.
Print Assumptions C25_step_time_since_run_start_partial.
Print Assumptions C25_last_row_refuted.
Print Assumptions C25_single_row_refuted.
Print Assumptions C26_columns_of_own_cycle_partial.
Print Assumptions C26_known_steps_are_read.
Print Assumptions C26_energy_uses_capacity_refuted.
Print Assumptions C27_parts_kept_up_to_shift.
Print Assumptions C27_columns_move_forward.
Print Assumptions C61_indigo_half_cycles.
Print Assumptions C61_mixed_cells_rejected.

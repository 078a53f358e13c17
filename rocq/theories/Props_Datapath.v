(** C16, C17, C57, C58: life cycle of a datapath, saving and loading.
    Vocabulary in Spec_Datapath; the four computations of structure() are
    arbitrary functions, so every theorem holds for whatever they compute. *)
From Verif Require Import Py Num Model_Summary Model_Datapath Spec_Datapath Proofs_Datapath.

Section Props.
  Context {D B : Type}.
  Variable sum_diag int_diag : frame -> D -> P B -> result frame.
  Variable int_cycles : frame -> option D -> P B -> result frame.
  Variable sum_cycles : frame -> option D -> P B -> outcome.
  Variable marks : frame -> list num.
  Variable find_schema : string -> option string.
  Notation structure' := (structure sum_diag int_diag int_cycles sum_cycles marks).
  Notation step' := (step sum_diag int_diag int_cycles sum_cycles marks find_schema).
  Notation run' := (run sum_diag int_diag int_cycles sum_cycles marks find_schema).
  Notation init' := (@init D B find_schema).

  (** C16: in every history whose calls all succeed and that saves/loads only
      structured objects, is_structured is what the calls say.
      Missing from the full statement: failed calls and reloads of unstructured
      objects, for which it is false (below). *)
  Theorem C16_is_structured_follows_calls_partial :
    forall raw m paths schema d0 ops d rs,
    init' raw m paths schema = Ok d0 -> run' d0 ops = (d, rs) -> all_ok rs -> reloads_structured false ops ->
    is_structured d = structured_after false ops.
  Proof. exact (is_structured_history sum_diag int_diag int_cycles sum_cycles marks find_schema). Qed.
  (** C16: what a successful structure() leaves: the results computed from the
      raw data, the current configuration and the arguments. *)
  Theorem C16_structure_stores_results :
    forall d p d', structure' d p = (d', Ok tt) ->
    exists raw sd ss, dp_legacy d = false /\ dp_raw d = Some raw /\
      int_cycles raw (dp_diag d) p = Ok sd /\ sum_cycles raw (dp_diag d) p = Done ss /\
      dp_sdata d' = Some sd /\ dp_ssum d' = Some ss /\ dp_params d' = Some (sp_base p) /\ dp_diag d' = dp_diag d /\
      same_identity d d' /\
      match dp_diag d with
      | Some dg => exists ds dd, sum_diag raw dg p = Ok ds /\ int_diag raw dg p = Ok dd /\
                     dp_dsum d' = Some ds /\ dp_ddata d' = Some dd
      | None => dp_dsum d' = dp_dsum d /\ dp_ddata d' = dp_ddata d
      end.
  Proof. exact (structure_ok sum_diag int_diag int_cycles sum_cycles marks). Qed.
  (** C16: unstructure always succeeds on an object built from raw data and
      leaves no trace of any structuring but the helper column. *)
  Theorem C16_unstructure_leaves_nothing :
    forall raw m paths schema d0 ops d rs,
    init' raw m paths schema = Ok d0 -> Forall no_reload ops -> run' d0 (ops ++ [OUnstructure]) = (d, rs) ->
    never_structured d /\ is_structured d = false /\ same_identity d0 d /\ same_raw (dp_raw d0) (dp_raw d) /\
    last_error rs = Some (Ok tt).
  Proof. exact (unstructure_clean sum_diag int_diag int_cycles sum_cycles marks find_schema). Qed.
  (** C16: no history of calls, failing or not, changes a measurement. *)
  Theorem C16_measurements_never_change :
    forall ops d d' rs, Forall no_reload ops -> run' d ops = (d', rs) ->
    same_identity d d' /\ same_raw (dp_raw d) (dp_raw d').
  Proof. exact (run_keeps sum_diag int_diag int_cycles sum_cycles marks find_schema). Qed.
  (** C16: an object loaded without raw data refuses everything, for ever, and
      its structured data never changes. *)
  Theorem C16_legacy_refuses_everything :
    forall ops d d' rs, dp_legacy d = true -> run' d ops = (d', rs) ->
    dp_sdata d' = dp_sdata d /\ dp_ssum d' = dp_ssum d /\ dp_ddata d' = dp_ddata d /\ dp_dsum d' = dp_dsum d /\
    dp_params d' = dp_params d /\ dp_meta d' = dp_meta d /\ dp_paths d' = dp_paths d /\
    Forall2 (fun o r => r = match o with OSetDiag _ => Ok tt | _ => Err ValueError end) ops rs.
  Proof. exact (legacy_history sum_diag int_diag int_cycles sum_cycles marks find_schema). Qed.
  (** C16: an operation that needs structured data fails before structuring. *)
  Theorem C16_guard :
    forall (d : datapath D B) thr, is_structured d = false -> summary_life d thr = Err RuntimeError.
  Proof. intros d thr H. unfold summary_life, guarded. rewrite H. reflexivity. Qed.

  (** C17: saved with raw data, a reachable structured object that can be saved
      loads back with the same contents; row labels are renumbered. *)
  Theorem C17_structured_round_trip_partial :
    (forall s p, find_schema s = Some p -> find_schema p = Some p) ->
    forall raw m paths schema d0 ops d rs fn j,
    init' raw m paths schema = Ok d0 -> run' d0 ops = (d, rs) -> is_structured d = true ->
    prefix "/" fn = true -> to_json d false = Ok j ->
    exists d', from_json find_schema fn j = Ok d' /\ is_structured d' = true /\ dp_legacy d' = false /\
      same_columns_opt (dp_sdata d') (dp_sdata d) /\ same_columns_opt (dp_ssum d') (dp_ssum d) /\
      same_columns_opt (dp_ddata d') (dp_ddata d) /\ same_columns_opt (dp_dsum d') (dp_dsum d) /\
      same_columns_opt (dp_raw d') (dp_raw d) /\
      dp_diag d' = dp_diag d /\ dp_params d' = dp_params d /\ dp_meta d' = dp_meta d /\ dp_schema d' = dp_schema d /\
      dp_paths d' = sset (dp_paths d) "structured" (Some fn) /\
      (forall f, In (Some f) [dp_sdata d'; dp_ssum d'; dp_ddata d'; dp_dsum d'; dp_raw d'] ->
         f_index f = range_index (nrows (f_cols f))).
  Proof.
    intros ST raw m paths schema d0 ops d rs fn j I R.
    exact (reload_full find_schema d fn j (run_wf sum_diag int_diag int_cycles sum_cycles marks find_schema ST ops _ _ _ (init_wf find_schema ST _ _ _ _ _ I) R)).
  Qed.
  (** C17: saved without raw data (the default), everything but the raw data
      and the extra metadata survives. *)
  Theorem C17_round_trip_without_raw :
    (forall s p, find_schema s = Some p -> find_schema p = Some p) ->
    forall raw m paths schema d0 ops d rs fn j,
    init' raw m paths schema = Ok d0 -> run' d0 ops = (d, rs) -> is_structured d = true ->
    prefix "/" fn = true -> to_json d true = Ok j ->
    exists d', from_json find_schema fn j = Ok d' /\ is_structured d' = true /\ dp_legacy d' = true /\ dp_raw d' = None /\
      same_columns_opt (dp_sdata d') (dp_sdata d) /\ same_columns_opt (dp_ssum d') (dp_ssum d) /\
      same_columns_opt (dp_ddata d') (dp_ddata d) /\ same_columns_opt (dp_dsum d') (dp_dsum d) /\
      dp_diag d' = dp_diag d /\ dp_params d' = dp_params d /\ dp_schema d' = dp_schema d /\
      dp_paths d' = sset (dp_paths d) "structured" (Some fn) /\
      (forall k, In k ["barcode"; "protocol"; "channel_id"]%string -> sget (dp_meta d') k = sget (dp_meta d) k).
  Proof.
    intros ST raw m paths schema d0 ops d rs fn j I R.
    exact (reload_omit find_schema d fn j (run_wf sum_diag int_diag int_cycles sum_cycles marks find_schema ST ops _ _ _ (init_wf find_schema ST _ _ _ _ _ I) R)).
  Qed.
  (** C17: saving and loading a second time changes nothing at all. *)
  Theorem C17_second_round_trip_identical :
    (forall s p, find_schema s = Some p -> find_schema p = Some p) ->
    forall raw m paths schema d0 ops d rs fn j d1 j1,
    init' raw m paths schema = Ok d0 -> run' d0 ops = (d, rs) -> is_structured d = true -> prefix "/" fn = true ->
    to_json d false = Ok j -> from_json find_schema fn j = Ok d1 -> to_json d1 false = Ok j1 ->
    from_json find_schema fn j1 = Ok d1.
  Proof.
    intros ST raw m paths schema d0 ops d rs fn j d1 j1 I R.
    exact (reload_stable find_schema ST d fn j d1 j1 (run_wf sum_diag int_diag int_cycles sum_cycles marks find_schema ST ops _ _ _ (init_wf find_schema ST _ _ _ _ _ I) R)).
  Qed.
  (** C57: the cycle life before and after a reload is the same computation, on
      the labels before and on the positions after. *)
  Theorem C57_life_uses_positions_after_reload_partial :
    (forall s p, find_schema s = Some p -> find_schema p = Some p) ->
    forall raw m paths schema d0 ops d rs fn j d' s caps omit thr,
    init' raw m paths schema = Ok d0 -> run' d0 ops = (d, rs) -> is_structured d = true -> prefix "/" fn = true ->
    to_json d omit = Ok j -> from_json find_schema fn j = Ok d' ->
    dp_ssum d = Some s -> sget (f_cols s) "discharge_capacity" = Some caps ->
    summary_life d thr = get_cycle_life (combine (f_index s) caps) 40 thr /\
    summary_life d' thr = get_cycle_life (combine (range_index (nrows (f_cols s))) caps) 40 thr.
  Proof.
    intros ST raw m paths schema d0 ops d rs fn j d' s caps omit thr I R.
    exact (life_reload find_schema d fn j d' s caps omit thr (run_wf sum_diag int_diag int_cycles sum_cycles marks find_schema ST ops _ _ _ (init_wf find_schema ST _ _ _ _ _ I) R)).
  Qed.
  (** C57: so it is preserved when the cycles are numbered 0, 1, 2, ... *)
  Theorem C57_life_preserved_partial :
    (forall s p, find_schema s = Some p -> find_schema p = Some p) ->
    forall raw m paths schema d0 ops d rs fn j d' s caps omit thr,
    init' raw m paths schema = Ok d0 -> run' d0 ops = (d, rs) -> is_structured d = true -> prefix "/" fn = true ->
    to_json d omit = Ok j -> from_json find_schema fn j = Ok d' ->
    dp_ssum d = Some s -> sget (f_cols s) "discharge_capacity" = Some caps ->
    f_index s = range_index (nrows (f_cols s)) -> summary_life d' thr = summary_life d thr.
  Proof.
    intros ST raw m paths schema d0 ops d rs fn j d' s caps omit thr I R S F T FJ E C X.
    destruct (C57_life_uses_positions_after_reload_partial ST raw m paths schema d0 ops d rs fn j d' s caps omit thr I R S F T FJ E C) as [A1 A2].
    rewrite A1, A2, X. reflexivity.
  Qed.
  (** C58: holds when exclude_cycles, which is not recorded, was the same. *)
  Theorem C58_recorded_parameters_determine_partial :
    forall d1 d2 p1 p2 d1' d2',
    dp_raw d1 = dp_raw d2 -> dp_diag d1 = dp_diag d2 -> sp_exclude p1 = sp_exclude p2 ->
    structure' d1 p1 = (d1', Ok tt) -> structure' d2 p2 = (d2', Ok tt) -> dp_params d1' = dp_params d2' ->
    dp_sdata d1' = dp_sdata d2' /\ dp_ssum d1' = dp_ssum d2'.
  Proof. exact (structure_deterministic sum_diag int_diag int_cycles sum_cycles marks). Qed.
End Props.

(** ** A concrete instance: computations that copy the cycle_index and
    discharge_capacity columns of the cycles not excluded; interpolation fails
    if the voltage is missing. *)
Definition keep (ex : option (list Z)) (rows : list (Z * num)) : list (Z * num) :=
  match ex with
  | None => rows
  | Some l => filter (fun r => negb (existsb (Z.eqb (fst r)) l)) rows
  end.
Definition copy (ex : option (list Z)) (f : frame) : frame :=
  match sget (f_cols f) "discharge_capacity" with
  | None => {| f_index := []; f_cols := [] |}
  | Some c => let rows := keep ex (combine (f_index f) c) in
              {| f_index := map fst rows; f_cols := [("discharge_capacity"%string, map snd rows)] |}
  end.
Definition ex_diag (f : frame) (_ : bool) (_ : P nat) : result frame := Ok (copy None f).
Definition ex_int (f : frame) (_ : option bool) (p : P nat) : result frame :=
  match sget (f_cols f) "voltage" with
  | Some (None :: _) => Err ValueError
  | _ => Ok (copy (sp_exclude p) f)
  end.
Definition ex_sum (f : frame) (_ : option bool) (_ : P nat) : outcome := Done (copy None f).
Definition ex_marks (f : frame) : list num := map (fun _ => Some 0) (f_index f).
Definition ex_find (s : string) : option string := Some s.
Lemma ex_find_stays : forall s p, ex_find s = Some p -> ex_find p = Some p.
Proof. intros s p H. injection H as <-. reflexivity. Qed.
Definition ex_raw (v : num) : frame :=
  {| f_index := [5%Z; 9%Z]; f_cols := [("voltage"%string, [v; v]); ("discharge_capacity"%string, [Some 1; Some (1 # 2)])] |}.
Definition ex_run := run ex_diag ex_diag ex_int ex_sum ex_marks ex_find.
Definition ex_init (v : num) : result (datapath bool nat) :=
  @init bool nat ex_find (Some (ex_raw v)) [("barcode", "b1"); ("extra", "e")]%string [("raw"%string, Some "/data/x"%string)] (Some "schema.yaml"%string).
Definition ex_p : P nat := {| sp_base := 7%nat; sp_exclude := None |}.

(** Findings (C16): a reload makes an unstructured object structured... *)
Theorem C16_reload_of_unstructured_refuted :
  exists d0 ops d rs, ex_init (Some 3) = Ok d0 /\ ex_run d0 ops = (d, rs) /\ all_ok rs /\
    structured_after false ops = false /\ is_structured d = true.
Proof.
  destruct (ex_init (Some 3)) as [d0|] eqn:E; [|discriminate E].
  exists d0, [@OUnstructure bool nat; OReload false "/data/s.json"].
  injection E as <-. eexists _, _. split; [reflexivity|]. split; [vm_compute; reflexivity|].
  split; [repeat constructor|]. split; reflexivity.
Qed.
(** ... a structuring that raises leaves the object structured, although it
    has no structured data, and such an object cannot be saved ... *)
Theorem C16_failed_structuring_refuted :
  exists d0 ops d rs, ex_init None = Ok d0 /\ ex_run d0 ops = (d, rs) /\ rs = [Ok tt; Err ValueError] /\
    is_structured d = true /\ dp_sdata d = None /\ (forall omit, to_json d omit = Err AttributeError).
Proof.
  destruct (ex_init None) as [d0|] eqn:E; [|discriminate E].
  exists d0, [OSetDiag (Some true); @OStructure bool nat ex_p].
  injection E as <-. eexists _, _. split; [reflexivity|]. split; [vm_compute; reflexivity|].
  split; [reflexivity|]. split; [reflexivity|]. split; [reflexivity|]. intros []; reflexivity.
Qed.
(** ... and structuring without a configuration keeps the diagnostic results of
    an earlier one. *)
Theorem C16_stale_diagnostics_refuted :
  exists d0 ops d rs, ex_init (Some 3) = Ok d0 /\ ex_run d0 ops = (d, rs) /\ all_ok rs /\
    dp_diag d = None /\ dp_ddata d <> None /\ dp_dsum d <> None.
Proof.
  destruct (ex_init (Some 3)) as [d0|] eqn:E; [|discriminate E].
  exists d0, [OSetDiag (Some true); @OStructure bool nat ex_p; OSetDiag None; OStructure ex_p].
  injection E as <-. eexists _, _. split; [reflexivity|]. split; [vm_compute; reflexivity|].
  split; [repeat constructor|]. split; [reflexivity|]. split; discriminate.
Qed.
(** Finding (C17): an unstructured object does not survive a round trip. *)
Theorem C17_unstructured_round_trip_refuted :
  exists d j d', ex_init (Some 3) = Ok d /\ to_json d false = Ok j /\ from_json ex_find "/data/s.json" j = Ok d' /\
    is_structured d = false /\ is_structured d' = true /\ dp_sdata d = None /\ dp_sdata d' <> None.
Proof.
  destruct (ex_init (Some 3)) as [d|] eqn:E; [|discriminate E]. injection E as <-.
  eexists _, _, _. split; [reflexivity|]. split; [reflexivity|]. split; [vm_compute; reflexivity|].
  repeat split; discriminate.
Qed.
(** Finding (C57): with cycles labelled 5, 9 the cycle life changes from 9 to 1. *)
Theorem C57_life_preserved_refuted :
  exists d0 ops d rs j d', ex_init (Some 3) = Ok d0 /\ ex_run d0 ops = (d, rs) /\ all_ok rs /\
    to_json d true = Ok j /\ from_json ex_find "/data/s.json" j = Ok d' /\
    summary_life d (8 # 10) = Ok 9%Z /\ summary_life d' (8 # 10) = Ok 1%Z.
Proof.
  destruct (ex_init (Some 3)) as [d0|] eqn:E; [|discriminate E].
  exists d0, [@OStructure bool nat ex_p]. injection E as <-.
  eexists _, _, _, _. split; [reflexivity|]. split; [vm_compute; reflexivity|].
  split; [repeat constructor|]. split; [reflexivity|]. split; [vm_compute; reflexivity|]. split; vm_compute; reflexivity.
Qed.
(** Finding (C58): the excluded cycles are not recorded. *)
Theorem C58_recorded_parameters_determine_refuted :
  exists d p1 p2 d1 d2, ex_init (Some 3) = Ok d /\
    structure ex_diag ex_diag ex_int ex_sum ex_marks d p1 = (d1, Ok tt) /\
    structure ex_diag ex_diag ex_int ex_sum ex_marks d p2 = (d2, Ok tt) /\
    dp_params d1 = dp_params d2 /\ dp_params d1 <> None /\ dp_sdata d1 <> dp_sdata d2.
Proof.
  destruct (ex_init (Some 3)) as [d0|] eqn:E; [|discriminate E].
  exists d0, ex_p, {| sp_base := 7%nat; sp_exclude := Some [9%Z] |}. injection E as <-.
  eexists _, _. split; [reflexivity|]. split; [vm_compute; reflexivity|]. split; [vm_compute; reflexivity|].
  split; [reflexivity|]. split; discriminate.
Qed.

(** The hypotheses are met: a history with every kind of call. *)
Definition ex_ops : list (op bool nat) :=
  [OValidate; OStructure ex_p; OUnstructure; OSetDiag (Some true); OStructure ex_p; OReload false "/data/s.json"; OStructure ex_p].
Example C16_history_nonvacuous :
  exists d0 d rs, ex_init (Some 3) = Ok d0 /\ ex_run d0 ex_ops = (d, rs) /\ all_ok rs /\ reloads_structured false ex_ops /\
    structured_after false ex_ops = true /\ length rs = 7%nat.
Proof.
  destruct (ex_init (Some 3)) as [d0|] eqn:E; [|discriminate E]. exists d0. injection E as <-.
  eexists _, _. split; [reflexivity|]. split; [vm_compute; reflexivity|]. split; [repeat constructor|].
  split; [simpl; auto|]. split; reflexivity.
Qed.
Example C17_nonvacuous :
  exists d0 d rs j d' s caps, ex_init (Some 3) = Ok d0 /\ ex_run d0 [OSetDiag (Some true); OStructure ex_p] = (d, rs) /\ is_structured d = true /\
    prefix "/" "/data/s.json" = true /\ to_json d false = Ok j /\ from_json ex_find "/data/s.json" j = Ok d' /\
    dp_ssum d = Some s /\ sget (f_cols s) "discharge_capacity" = Some caps /\ to_json d' false <> Err ValueError.
Proof.
  destruct (ex_init (Some 3)) as [d0|] eqn:E; [|discriminate E]. exists d0. injection E as <-.
  eexists _, _, _, _, _, _. split; [reflexivity|]. split; [vm_compute; reflexivity|]. split; [reflexivity|].
  split; [reflexivity|]. split; [reflexivity|]. split; [vm_compute; reflexivity|]. split; [reflexivity|]. split; [vm_compute; reflexivity|discriminate].
Qed.
Example C16_legacy_nonvacuous :
  exists d0 d rs, ex_init (Some 3) = Ok d0 /\ ex_run d0 [OStructure ex_p; OReload true "/data/s.json"] = (d, rs) /\
    dp_legacy d = true /\ dp_sdata d <> None.
Proof.
  destruct (ex_init (Some 3)) as [d0|] eqn:E; [|discriminate E]. exists d0. injection E as <-.
  eexists _, _. split; [reflexivity|]. split; [vm_compute; reflexivity|]. split; [reflexivity|discriminate].
Qed.

Print Assumptions C16_is_structured_follows_calls_partial.
Print Assumptions C16_structure_stores_results.
Print Assumptions C16_unstructure_leaves_nothing.
Print Assumptions C16_measurements_never_change.
Print Assumptions C16_legacy_refuses_everything.
Print Assumptions C16_guard.
Print Assumptions C17_structured_round_trip_partial.
Print Assumptions C17_round_trip_without_raw.
Print Assumptions C17_second_round_trip_identical.
Print Assumptions C57_life_uses_positions_after_reload_partial.
Print Assumptions C57_life_preserved_partial.
Print Assumptions C58_recorded_parameters_determine_partial.
Print Assumptions C16_reload_of_unstructured_refuted.
Print Assumptions C16_failed_structuring_refuted.
Print Assumptions C16_stale_diagnostics_refuted.
Print Assumptions C17_unstructured_round_trip_refuted.
Print Assumptions C57_life_preserved_refuted.
Print Assumptions C58_recorded_parameters_determine_refuted.

(** C01, C02: the data validator. *)
From Verif Require Import Py Num Model_Validate Spec_Validate Proofs_Validate.

(** C01: a frame is accepted exactly when every rule of the schema is met. *)
Theorem C01_validator_accepts_iff_schema_met :
  forall (s : schema) (f : frame), validate s f = Ok None <-> conforms f s.
Proof. exact validate_ok. Qed.

(** C01: columns the schema does not name never influence the verdict. *)
Theorem C01_unmentioned_columns_irrelevant :
  forall (s : schema) (f f' : frame),
    (forall c r, In (c, r) s -> forall n col, lower n = c -> In (n, col) f <-> In (n, col) f') ->
    NoDup (map (fun nc => lower (fst nc)) f) -> NoDup (map (fun nc => lower (fst nc)) f') ->
    validate s f = validate s f'.
Proof. exact validate_frame. Qed.

(** C01: on NaN-free columns the "increasing" rule is global monotonicity. *)
Theorem C01_increasing_is_global_without_nan :
  forall xs : list Q,
  increasing_holds {| c_dtype := DFloat; c_cells := map (fun q => CNum (Some q)) xs |} <->
  forall i j a b, (i < j)%nat -> nth_error xs i = Some a -> nth_error xs j = Some b -> a <= b.
Proof. exact increasing_global. Qed.

Definition no_rules := {| r_type := None; r_max := None; r_min := None;
  r_max_at_least := None; r_min_is_below := None; r_monotonic := None |}.

(** Finding: a decrease across a missing value is accepted as "increasing". *)
Theorem C01_increasing_across_missing_refuted :
  exists (s : schema) (f : frame) col i j a b,
    s = [("x"%string, {| r_type := None; r_max := None; r_min := None;
           r_max_at_least := None; r_min_is_below := None; r_monotonic := Some "increasing"%string |})] /\
    validate s f = Ok None /\ f = [("x"%string, col)] /\ (i < j)%nat /\
    nth_error (c_cells col) i = Some (CNum (Some a)) /\
    nth_error (c_cells col) j = Some (CNum (Some b)) /\ b < a.
Proof.
  eexists _, _, {| c_dtype := DFloat; c_cells := [CNum (Some 5); CNum None; CNum (Some 1)] |}, 0%nat, 2%nat, 5, 1.
  repeat split; first [lia | vm_compute; reflexivity].
Qed.

(** C02: a rejection names the first unmet rule (in schema order) and, for the
    per-row rules, the first offending row and its value. *)
Theorem C02_rejection_names_first_violation :
  forall (s : schema) (f : frame) (r : reason),
    validate s f = Ok (Some r) ->
    exists before o after,
      obligations s = before ++ o :: after /\
      (forall o', In o' before -> met f o') /\ ~ met f o /\
      about r o /\ cites_offender f r.
Proof. exact validate_some. Qed.

(** Finding: the message of a failed "max at least" rule cites the value of
    the first row, not the column's maximum. *)
Theorem C02_max_at_least_cites_maximum_refuted :
  exists (s : schema) (f : frame) c m v col q,
    validate s f = Ok (Some (RMaxAtLeast c m (CNum (Some v)))) /\
    column_named f c col /\ In (CNum (Some q)) (c_cells col) /\ v < q.
Proof.
  exists [("x"%string, {| r_type := None; r_max := None; r_min := None; r_max_at_least := Some 9;
                          r_min_is_below := None; r_monotonic := None |})].
  exists [("X"%string, {| c_dtype := DFloat; c_cells := [CNum (Some 1); CNum (Some 2)] |})].
  exists "x"%string, 9, 1, {| c_dtype := DFloat; c_cells := [CNum (Some 1); CNum (Some 2)] |}, 2.
  split; [|split; [|split]].
  - vm_compute. reflexivity.
  - apply get_column_ok. vm_compute. reflexivity.
  - simpl. auto.
  - vm_compute. reflexivity.
Qed.

(** Finding: the message of a failed "min is below" rule prints the
    max-at-least bound instead of the violated one. *)
Theorem C02_min_is_below_prints_its_bound_refuted :
  exists (s : schema) (f : frame) c p v m r,
    In (c, r) s /\ r_min_is_below r = Some m /\
    validate s f = Ok (Some (RMinBelow c p v)) /\ p <> Some m.
Proof.
  exists [("x"%string, {| r_type := None; r_max := None; r_min := None; r_max_at_least := None;
                          r_min_is_below := Some 1; r_monotonic := None |})].
  exists [("x"%string, {| c_dtype := DFloat; c_cells := [CNum (Some 3)] |})].
  exists "x"%string, None, (CNum (Some 3)), 1.
  eexists. split; [left; reflexivity|]. split; [reflexivity|]. split.
  - vm_compute. reflexivity.
  - discriminate.
Qed.

(** Non-vacuity: an accepted frame, a rejected frame, an unmentioned column. *)
Definition ex_schema : schema :=
  [("cycle_index"%string, {| r_type := Some "integer"%string; r_max := Some 100; r_min := Some 0;
      r_max_at_least := Some 1; r_min_is_below := Some 1; r_monotonic := Some "increasing"%string |});
   ("voltage"%string, {| r_type := Some "float"%string; r_max := Some (38#10); r_min := Some (5#10);
      r_max_at_least := None; r_min_is_below := None; r_monotonic := None |})].
Definition ex_frame (v : Q) : frame :=
  [("Cycle_Index"%string, {| c_dtype := DInt; c_cells := [CNum (Some 0); CNum (Some 1); CNum (Some 2)] |});
   ("Voltage"%string, {| c_dtype := DFloat; c_cells := [CNum (Some (36#10)); CNum None; CNum (Some v)] |});
   ("notes"%string, {| c_dtype := DObject; c_cells := [CStr "a"] |})].
Example C01_accepts : validate ex_schema (ex_frame (37#10)) = Ok None /\ List.length (obligations ex_schema) = 9%nat.
Proof. split; vm_compute; reflexivity. Qed.
Example C02_rejects : validate ex_schema (ex_frame 4) =
  Ok (Some (RMax "voltage" (38#10) 2 (Some 4))).
Proof. vm_compute. reflexivity. Qed.
Example C01_frame_hyp : NoDup (map (fun nc => lower (fst nc)) (ex_frame 4)).
Proof. repeat constructor; simpl; intuition discriminate. Qed.

Print Assumptions C01_validator_accepts_iff_schema_met.
Print Assumptions C01_unmentioned_columns_irrelevant.
Print Assumptions C01_increasing_is_global_without_nan.
Print Assumptions C01_increasing_across_missing_refuted.
Print Assumptions C02_rejection_names_first_violation.
Print Assumptions C02_max_at_least_cites_maximum_refuted.
Print Assumptions C02_min_is_below_prints_its_bound_refuted.

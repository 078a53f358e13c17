(** C03, C04, C05: diagnostic configuration. *)
From Verif Require Import Py Model_Diagnostic Proofs_Diagnostic.

(** C03: accepted exactly when some type is given, no cycle index is listed
    under two different entries, and all parameters are primitive values. *)
Theorem C03_accepted_iff :
  forall (d : list (string * list Z)) (kw : list (string * kwvalue)),
  is_ok (make_config d kw) = true <->
  d <> [] /\
  ~ (exists i j ti tj ix li lj, i <> j /\ nth_error d i = Some (ti, li) /\
       nth_error d j = Some (tj, lj) /\ In ix li /\ In ix lj) /\
  (forall k v, In (k, v) kw -> v <> KOther).
Proof. exact make_config_ok_iff. Qed.

(** C03: each listed index has exactly the type that lists it, all others none. *)
Theorem C03_type_of_cycle :
  forall d kw c ix t, make_config d kw = Ok c ->
  (d_get Z.eqb (g_by_ix c) ix = Some t <-> exists l, In (t, l) d /\ In ix l).
Proof. exact config_type_of. Qed.

Theorem C03_all_indices_are_the_union :
  forall d kw c ix, make_config d kw = Ok c ->
  (In ix (g_all_ix c) <-> exists t l, In (t, l) d /\ In ix l).
Proof. exact config_all_ix. Qed.

(** C03: the named index sets; the relation to substrings is stated below. *)
Theorem C03_hppc_rpt_reset :
  forall d kw c, make_config d kw = Ok c -> forall ix,
  (In ix (g_hppc c) <-> exists t l, In (t, l) d /\ In ix l /\ contains "hppc" (lower t) = true) /\
  (In ix (g_rpt c) <-> exists t l, In (t, l) d /\ In ix l /\ contains "rpt" (lower t) = true) /\
  (In ix (g_reset c) <-> exists t l, In (t, l) d /\ In ix l /\ contains "reset" (lower t) = true).
Proof. exact config_words. Qed.
Theorem C03_contains_is_substring :
  forall p s, contains p s = true <-> exists a b, s = (a ++ p ++ b)%string.
Proof. exact contains_iff. Qed.

Theorem C03_cycles_are_the_given_sets :
  forall d kw c, make_config d kw = Ok c ->
  map fst (g_cycles c) = map fst d /\
  forall i t l, nth_error d i = Some (t, l) ->
    exists l', nth_error (g_cycles c) i = Some (t, l') /\ NoDup l' /\ forall ix, In ix l' <-> In ix l.
Proof. exact config_cycles. Qed.

(** C04: loading the saved form of any accepted configuration gives it back,
    with every attribute and parameter. *)
Theorem C04_round_trip :
  forall d kw c, make_config d kw = Ok c -> from_dict (as_dict c) = Ok c.
Proof. exact round_trip. Qed.

(** C05: a cycle is put under a type exactly when its step set matches one of
    the type's patterns ([cycle_has_type], [pattern_matches] are the
    declarative set statements).  The keys of a Python dict are distinct. *)
Theorem C05_detected_iff_pattern_matches :
  forall rows (crit : criteria) kw c,
  NoDup (map fst crit) -> from_step_numbers true rows crit kw = Ok c ->
  forall t cix,
    (d_get Z.eqb (g_by_ix c) cix = Some t <->
     exists mt pats pat,
       In (t, (mt, pats)) crit /\ In pat pats /\ In cix (map w_cycle rows) /\
       pattern_matches mt (map w_step (filter (fun w => Z.eqb (w_cycle w) cix) rows)) pat).
Proof. exact from_step_numbers_types. Qed.

(** C05: detection fails exactly on a missing column, no criteria, an unknown
    rule, an ambiguous cycle or a non-primitive parameter. *)
Theorem C05_detection_succeeds_iff :
  forall has rows crit kw, NoDup (map fst crit) ->
  (is_ok (from_step_numbers has rows crit kw) = true <->
   has = true /\ crit <> [] /\
   (forall t mt pats, In (t, (mt, pats)) crit -> mt = "contains"%string \/ mt = "exact"%string) /\
   (forall t t' cix, cycle_has_type rows crit t cix -> cycle_has_type rows crit t' cix -> t = t') /\
   (forall k v, In (k, v) kw -> v <> KOther)).
Proof. exact from_step_numbers_ok_iff. Qed.

(** C05: row order and repetition do not matter. *)
Theorem C05_only_the_set_of_rows_matters :
  forall rows rows' crit t cix,
  (forall cy st, In {| w_cycle := cy; w_step := st |} rows <-> In {| w_cycle := cy; w_step := st |} rows') ->
  cycle_has_type rows crit t cix -> cycle_has_type rows' crit t cix.
Proof. exact cycle_has_type_set. Qed.

(** Non-vacuity *)
Definition ex_diag := [("hppc"%string, [1; 2; 1]); ("RPT_0.2C"%string, [3])]%Z.
Example C03_ex : exists c, make_config ex_diag [("parameters_path"%string, KStr "p")] = Ok c /\
  d_get Z.eqb (g_by_ix c) 3%Z = Some "RPT_0.2C"%string /\ g_rpt c = [3%Z].
Proof. eexists. split; [vm_compute; reflexivity|]. split; vm_compute; reflexivity. Qed.
Example C03_ex_overlap : make_config [("a"%string, [1]); ("b"%string, [2; 1])]%Z [] = Err ValueError.
Proof. vm_compute. reflexivity. Qed.
Definition ex_rows := map (fun p => {| w_cycle := fst p; w_step := snd p |})
  [(0, 1); (0, 2); (0, 1); (1, 7); (1, 8); (1, 7); (2, 2); (2, 1); (2, 3)]%Z.
Definition ex_crit : criteria :=
  [("hppc"%string, ("contains"%string, [[7]]%Z)); ("rpt"%string, ("exact"%string, [[5]; [2; 1; 1]]%Z))].
Example C05_ex : exists c, from_step_numbers true ex_rows ex_crit [] = Ok c /\
  g_cycles c = [("hppc"%string, [1]); ("rpt"%string, [0])]%Z /\ NoDup (map fst ex_crit).
Proof.
  eexists. split; [vm_compute; reflexivity|]. split; [reflexivity|].
  repeat constructor; simpl; intuition discriminate.
Qed.

Print Assumptions C03_accepted_iff.
Print Assumptions C03_type_of_cycle.
Print Assumptions C03_all_indices_are_the_union.
Print Assumptions C03_hppc_rpt_reset.
Print Assumptions C03_contains_is_substring.
Print Assumptions C03_cycles_are_the_given_sets.
Print Assumptions C04_round_trip.
Print Assumptions C05_detected_iff_pattern_matches.
Print Assumptions C05_detection_succeeds_iff.
Print Assumptions C05_only_the_set_of_rows_matters.
